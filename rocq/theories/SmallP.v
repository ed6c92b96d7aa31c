(** The reduced block transforms and the choice of their size. *)
From Verif Require Import Base Tactics SpecBits SpecColor SpecIdct SpecSmall Clamp Idct IdctSmall ColorP IdctP PlaneP.

Lemma nth_upd_any : forall (p : plane) i j v, (i < length p)%nat -> nth j (upd p i v) None = if (j =? i)%nat then v else nth j p None.
Proof. intros p i j v H. destruct (Nat.eqb_spec j i) as [->|N]; [apply nth_upd_eq; exact H|apply nth_upd_neq; auto]. Qed.

Lemma put_line_ok : forall line p off, 0 <= off -> off + lenZ line <= lenZ p ->
  exists p', put_line p off line = Ok p' /\ length p' = length p /\
    (forall x, 0 <= x < lenZ line -> nth (Z.to_nat (off + x)) p' None = Some (nth (Z.to_nat x) line 0)) /\
    (forall i, 0 <= i -> (i < off \/ off + lenZ line <= i) -> nth (Z.to_nat i) p' None = nth (Z.to_nat i) p None).
Proof.
  induction line as [|v line IH]; intros p off Ho F; cbn [put_line].
  - exists p. splits; auto. unfold lenZ. cbn. intros; lia.
  - rewrite lenZ_cons in F |- *. pose proof (lenZ_nonneg _ line) as Ll. unfold store.
    assert (C : (0 <=? off) && (off <? Z.of_nat (length p)) = true) by (unfold lenZ in F, Ll; lia). rewrite C. cbn [bind]. clear C.
    assert (Ll2 : lenZ (upd p (Z.to_nat off) (Some v)) = lenZ p) by (unfold lenZ; rewrite upd_length; reflexivity).
    destruct (IH (upd p (Z.to_nat off) (Some v)) (off + 1)) as [p' [E [L [A B]]]]; [lia|lia|].
    exists p'. split; [exact E|]. split; [rewrite L; apply upd_length|]. assert (Hl : (Z.to_nat off < length p)%nat) by (unfold lenZ in F, Ll; lia). split.
    + intros x Hx. destruct (Z.eq_dec x 0) as [->|N].
      * rewrite B by lia. rewrite nth_upd_any by exact Hl. replace (Z.to_nat (off + 0) =? Z.to_nat off)%nat with true by lia. reflexivity.
      * replace (off + x) with (off + 1 + (x - 1)) by lia. rewrite A by lia. replace (Z.to_nat x) with (S (Z.to_nat (x - 1))) by lia. reflexivity.
    + intros i Hi O. rewrite B by lia. rewrite nth_upd_any by exact Hl. replace (Z.to_nat i =? Z.to_nat off)%nat with false by lia. reflexivity.
Qed.

Lemma put_lines_ok : forall n stride lines p off, 0 <= off -> 0 < n <= stride -> Forall (fun l => lenZ l = n) lines ->
  (lines = [] \/ off + (lenZ lines - 1) * stride + n <= lenZ p) ->
  exists p', put_lines p off stride lines = Ok p' /\ length p' = length p /\
    (forall y x, 0 <= y < lenZ lines -> 0 <= x < n -> nth (Z.to_nat (off + y * stride + x)) p' None = Some (nth (Z.to_nat x) (nth (Z.to_nat y) lines []) 0)) /\
    (forall i, 0 <= i -> (forall y x, 0 <= y < lenZ lines -> 0 <= x < n -> i <> off + y * stride + x) -> nth (Z.to_nat i) p' None = nth (Z.to_nat i) p None).
Proof.
  intros n stride. induction lines as [|l lines IH]; intros p off Ho Hn F Fit; cbn [put_lines].
  - exists p. splits; auto. unfold lenZ; cbn; intros; lia.
  - inversion F as [|? ? Hl F2]; subst. destruct Fit as [Fit|Fit]; [discriminate|]. rewrite lenZ_cons in *. pose proof (lenZ_nonneg _ lines) as Lp.
    assert (M0 : 0 <= lenZ lines * stride) by (apply Z.mul_nonneg_nonneg; lia).
    assert (Fit2 : off + lenZ lines * stride + lenZ l <= lenZ p) by lia. clear Fit.
    destruct (put_line_ok l p off Ho) as [p1 [E1 [L1 [A1 B1]]]]; [lia|]. rewrite E1. cbn [bind].
    destruct (IH p1 (off + stride)) as [p' [E [L [A B]]]]; [lia|lia|exact F2| |].
    { destruct lines as [|l2 lines]; [left; reflexivity|right]. unfold lenZ in *. rewrite L1. lia. }
    exists p'. split; [exact E|]. split; [congruence|]. split.
    + intros y x Hy Hx. destruct (Z.eq_dec y 0) as [->|N].
      * rewrite B; [rewrite Z.mul_0_l, Z.add_0_r; apply A1; lia|lia|]. intros y' x' Hy' Hx'. assert (0 <= y' * stride) by (apply Z.mul_nonneg_nonneg; lia). lia.
      * replace (off + y * stride + x) with (off + stride + (y - 1) * stride + x) by lia. rewrite A by lia. replace (Z.to_nat y) with (S (Z.to_nat (y - 1))) by lia. reflexivity.
    + intros i Hi O. rewrite B.
      * apply B1; [exact Hi|]. destruct (Z_lt_ge_dec i off); [left; lia|right]. destruct (Z_le_gt_dec (off + lenZ l) i); [lia|]. exfalso. apply (O 0 (i - off)); lia.
      * exact Hi.
      * intros y x Hy Hx Q. apply (O (y + 1) x); lia.
Qed.

(** ** Values *)
Lemma clamp_byte : forall x, - 2 ^ 31 <= x < 2 ^ 31 - 256 -> exists s, 0 <= s <= 255 /\ forall dbg, stbi_clamp dbg x = Ok s.
Proof.
  intros x H. exists (sat ((x + 256) mod 1024 - 256)). split; [unfold sat; lia|]. intros dbg. apply stbi_clamp_any. left. lia.
Qed.
Lemma w32_range : forall x, - 2 ^ 31 <= w32 x < 2 ^ 31.
Proof. intros x. unfold w32, swrap. change (2 ^ (32 - 1)) with 2147483648. change (2 ^ 32) with 4294967296. change (2 ^ 31) with 2147483648. lia. Qed.
Lemma shr_range : forall x k, 1 <= k -> - 2 ^ 31 <= x < 2 ^ 31 -> - 2 ^ 31 <= wshr x k < 2 ^ 31 - 256.
Proof.
  intros x k Hk H. unfold wshr. rewrite Z.shiftr_div_pow2 by lia. assert (P : 2 <= 2 ^ k) by (change 2 with (2 ^ 1) at 1; apply Z.pow_le_mono_r; lia).
  change (2 ^ 31) with 2147483648 in *. split; [apply Z.div_le_lower_bound; nia|]. apply Z.div_lt_upper_bound; nia.
Qed.
Lemma clamp_rows : forall n rows, lenZ rows = n -> Forall (fun r => lenZ r = n /\ Forall (fun x => - 2 ^ 31 <= x < 2 ^ 31 - 256) r) rows ->
  exists out, (forall dbg, mapM (mapM (stbi_clamp dbg)) rows = Ok out) /\ square n out.
Proof.
  intros n rows Ln F.
  assert (R : forall r, Forall (fun x => - 2 ^ 31 <= x < 2 ^ 31 - 256) r -> exists o, (forall dbg, mapM (stbi_clamp dbg) r = Ok o) /\ lenZ o = lenZ r /\ Forall (fun x => 0 <= x <= 255) o).
  { induction r as [|x r IH]; intros Fr; [exists []; splits; auto|]. inversion Fr as [|? ? Hx Fr2]; subst. destruct (IH Fr2) as [o [E [L B]]]. destruct (clamp_byte x Hx) as [s [Hs Es]].
    exists (s :: o). splits; [intros dbg; cbn [mapM]; rewrite Es, E; reflexivity|rewrite !lenZ_cons; lia|constructor; auto]. }
  assert (G : exists out, (forall dbg, mapM (mapM (stbi_clamp dbg)) rows = Ok out) /\ lenZ out = lenZ rows /\ Forall (fun r => lenZ r = n /\ Forall (fun x => 0 <= x <= 255) r) out).
  { clear Ln. induction rows as [|r rows IH]; [exists []; splits; auto|]. inversion F as [|? ? [Hr1 Hr2] F2]; subst. destruct (IH F2) as [out [E [L B]]]. destruct (R r Hr2) as [o [Eo [Lo Bo]]].
    exists (o :: out). splits; [intros dbg; cbn [mapM]; rewrite Eo, E; reflexivity|rewrite !lenZ_cons; lia|constructor; auto]. }
  destruct G as [out [E [L B]]]. exists out. split; [exact E|]. split; [lia|exact B].
Qed.

Lemma idct4_shape : forall coefs quant, lenZ (idct4_values coefs quant) = 4 /\
  Forall (fun r => lenZ r = 4 /\ Forall (fun x => - 2 ^ 31 <= x < 2 ^ 31 - 256) r) (idct4_values coefs quant).
Proof.
  intros coefs quant. split; [reflexivity|]. unfold idct4_values. cbn [seq map]. unfold idct_temp_row. cbn [map].
  repeat (apply Forall_cons; [|]); try apply Forall_nil; (split; [reflexivity|]); unfold idct4_row; repeat (apply Forall_cons; [apply shr_range; [lia|]; unfold wadd, wsub; apply w32_range|]); apply Forall_nil.
Qed.
Lemma idct2_shape : forall coefs quant, lenZ (idct2_values coefs quant) = 2 /\
  Forall (fun r => lenZ r = 2 /\ Forall (fun x => - 2 ^ 31 <= x < 2 ^ 31 - 256) r) (idct2_values coefs quant).
Proof.
  intros coefs quant. split; [reflexivity|]. unfold idct2_values.
  repeat (apply Forall_cons; [|]); try apply Forall_nil; (split; [reflexivity|]); repeat (apply Forall_cons; [apply shr_range; [lia|]; unfold wadd, wsub; apply w32_range|]); apply Forall_nil.
Qed.

(** ** Every scale writes its square and nothing else *)
Lemma written_by : forall n stride rows p off, 0 <= off -> 0 < n <= stride -> square n rows -> off + (n - 1) * stride + n <= lenZ p ->
  exists p', put_lines p off stride rows = Ok p' /\ written off stride n rows p p'.
Proof.
  intros n stride rows p off Ho Hn [L F] Fit. destruct (put_lines_ok n stride rows p off Ho Hn) as [p' [E [L' [A B]]]].
  - eapply Forall_impl; [|exact F]. intros r [H _]. exact H.
  - right. rewrite L. exact Fit.
  - exists p'. split; [exact E|]. unfold written. rewrite L in A, B. auto.
Qed.
Definition scale_rows (scale : Z) (coefs quant : list Z) (rows : list (list Z)) : Prop :=
  if scale =? 8 then forall dbg, idct_block_rows dbg coefs quant = Ok rows
  else if scale =? 4 then forall dbg, mapM (mapM (stbi_clamp dbg)) (idct4_values coefs quant) = Ok rows
  else if scale =? 2 then forall dbg, mapM (mapM (stbi_clamp dbg)) (idct2_values coefs quant) = Ok rows
  else forall dbg, mapM (mapM (stbi_clamp dbg)) [[idct1_value coefs quant]] = Ok rows.
Lemma idct1_shape : forall coefs quant, lenZ [[idct1_value coefs quant]] = 1 /\ Forall (fun r => lenZ r = 1 /\ Forall (fun x => - 2 ^ 31 <= x < 2 ^ 31 - 256) r) [[idct1_value coefs quant]].
Proof.
  intros coefs quant. split; [reflexivity|]. apply Forall_cons; [|apply Forall_nil]. split; [reflexivity|]. apply Forall_cons; [|apply Forall_nil].
  unfold idct1_value, wadd. pose proof (w32_range (dequant (at64 coefs 0) (at64 quant 0) + 128 * 8)) as W. change (2 ^ 31) with 2147483648 in *.
  remember (w32 _) as z. clear Heqz. lia.
Qed.
Lemma scale_total : forall scale coefs quant, In scale [1; 2; 4; 8] -> exists rows, scale_rows scale coefs quant rows /\ square scale rows /\
  forall dbg stride off p, 0 <= off -> scale <= stride -> off + (scale - 1) * stride + scale <= lenZ p ->
    exists p', idct_block dbg scale coefs quant stride off p = Ok p' /\ written off stride scale rows p p'.
Proof.
  intros scale coefs quant I. unfold scale_rows, idct_block. destruct I as [<-|[<-|[<-|[<-|[]]]]]; cbn [Z.eqb Pos.eqb].
  - destruct (idct1_shape coefs quant) as [L F]. destruct (clamp_rows 1 _ L F) as [rows [E Sq]]. exists rows. splits; auto. intros dbg stride off p Ho Hs Fit.
    destruct (written_by 1 stride rows p off Ho ltac:(lia) Sq Fit) as [p' [Ep W]]. exists p'. split; [|exact W].
    specialize (E dbg). cbn [mapM] in E. unfold idct_block_1x1. destruct (stbi_clamp dbg (idct1_value coefs quant)) as [v| | |]; try discriminate. cbn [bind] in *. injection E as <-.
    cbn [put_lines] in Ep. destruct (put_line p off [v]); try discriminate. exact Ep.
  - destruct (idct2_shape coefs quant) as [L F]. destruct (clamp_rows 2 _ L F) as [rows [E Sq]]. exists rows. splits; auto. intros dbg stride off p Ho Hs Fit.
    destruct (written_by 2 stride rows p off Ho ltac:(lia) Sq Fit) as [p' [Ep W]]. exists p'. split; [|exact W]. unfold idct_block_2x2. rewrite E. exact Ep.
  - destruct (idct4_shape coefs quant) as [L F]. destruct (clamp_rows 4 _ L F) as [rows [E Sq]]. exists rows. splits; auto. intros dbg stride off p Ho Hs Fit.
    destruct (written_by 4 stride rows p off Ho ltac:(lia) Sq Fit) as [p' [Ep W]]. exists p'. split; [|exact W]. unfold idct_block_4x4. rewrite E. exact Ep.
  - exists (block_samples coefs quant). destruct (block_samples_shape coefs quant) as [L F].
    assert (Sq : square 8 (block_samples coefs quant)).
    { split; [unfold lenZ; rewrite L; reflexivity|]. eapply Forall_impl; [|exact F]. intros r [H1 H2]. split; [unfold lenZ; rewrite H1; reflexivity|]. eapply Forall_impl; [|exact H2]. unfold is_byte. intros; lia. }
    splits; [intros; apply idct_block_total|exact Sq|]. intros dbg stride off p Ho Hs Fit. unfold idct_block_8x8. rewrite idct_block_total.
    assert (Q1 : negb (stride =? 0) = true) by lia. rewrite Q1. cbn [assert_ bind].
    assert (Q2 : 8 <=? (lenZ p - off + stride - 1) / stride = true) by (apply Z.leb_le, Z.div_le_lower_bound; lia). rewrite Q2.
    assert (Q3 : debug_assert dbg true = Ok tt) by (destruct dbg; reflexivity). rewrite Q3. cbn [bind].
    destruct (put_rows_ok stride (block_samples coefs quant) p off Hs Ho) as [p' [E [L' N]]].
    + eapply Forall_impl; [|exact F]. intros r [H _]. exact H.
    + right. destruct Sq as [-> _]. exact Fit.
    + exists p'. split; [exact E|]. destruct Sq as [Sl _]. split; [exact L'|]. split.
      * intros y x Hy Hx. assert (0 <= y * stride) by (apply Z.mul_nonneg_nonneg; lia). rewrite N by lia. cbv zeta. replace (off + y * stride + x - off) with (x + y * stride) by lia.
        rewrite Z.div_add, Z.mod_add, Z.div_small, Z.mod_small, Sl by lia. replace (0 + y) with y by lia.
        replace ((0 <=? x + y * stride) && (y <? 8) && (x <? 8)) with true by lia. reflexivity.
      * intros i Hi O. rewrite N by exact Hi. cbv zeta. rewrite Sl.
        destruct ((0 <=? i - off) && ((i - off) / stride <? 8) && ((i - off) mod stride <? 8)) eqn:C; [|reflexivity]. exfalso.
        assert (P0 : 0 <= (i - off) / stride) by (apply Z.div_pos; lia). pose proof (Z.mod_pos_bound (i - off) stride ltac:(lia)) as P1.
        apply (O ((i - off) / stride) ((i - off) mod stride)); lia.
Qed.

(** ** Flat blocks *)
Ltac simp0 := repeat (progress rewrite ?Z.mul_0_l, ?w32_0, ?Z.add_0_r, ?Z.add_0_l, ?Z.sub_0_r).
Lemma w32_lit : forall k, - 2 ^ 31 <= k < 2 ^ 31 -> w32 k = k.
Proof. intros. apply w32_id. lia. Qed.
Lemma flat4 : forall coefs quant, flat coefs -> let v := nth 0 coefs 0 * nth 0 quant 0 in - 2 ^ 16 < v < 2 ^ 16 ->
  idct4_values coefs quant = repeat (repeat ((v + 4) / 8 + 128) 4) 4.
Proof.
  intros coefs quant D v Hv. change (2 ^ 16) with 65536 in Hv.
  destruct K_values as [K1 [K2 [K3 _]]].
  assert (C : forall i, (i < 4)%nat -> idct4_column coefs quant i = repeat (if (i =? 0)%nat then v * 4 else 0) 4).
  { intros i Hi. unfold idct4_column, at64. rewrite K1, K2, K3. rewrite (D (i + 8 * 1)%nat), (D (i + 8 * 2)%nat), (D (i + 8 * 3)%nat) by lia.
    change (i + 8 * 0)%nat with (i + 0)%nat. rewrite Nat.add_0_r. destruct i as [|i]; cbn [Nat.eqb].
    - fold v. assert (Ed : dequant (nth 0 coefs 0) (nth 0 quant 0) = v) by (unfold dequant; fold v; apply w32_lit; change (2 ^ 31) with 2147483648; lia). rewrite Ed.
      unfold dequant, wadd, wsub, wmul, wshl, wshr. simp0.
      rewrite !(w32_lit v) by (change (2 ^ 31) with 2147483648; lia). rewrite Z.shiftl_mul_pow2 by lia. change (2 ^ 2) with 4. change (w32 512) with 512.
      change (Z.shiftr 512 10) with 0. simp0. rewrite !w32_w32. rewrite !(w32_lit (v * 4)) by (change (2 ^ 31) with 2147483648; lia). reflexivity.
    - rewrite D by lia. reflexivity. }
  assert (R : idct4_row [v * 4; 0; 0; 0] = repeat ((v + 4) / 8 + 128) 4).
  { unfold idct4_row. rewrite K1, K2, K3. unfold wadd, wsub, wmul, wshl, wshr. change (128 * 2 ^ 17) with 16777216.
    simp0.
    rewrite !(w32_lit (v * 4)) by (change (2 ^ 31) with 2147483648; lia). rewrite Z.shiftl_mul_pow2 by lia. change (2 ^ 12) with 4096.
    rewrite !(w32_lit (v * 4 * 4096)) by (change (2 ^ 31) with 2147483648; lia). rewrite !(w32_lit (v * 4 * 4096 + 65536)) by (change (2 ^ 31) with 2147483648; lia).
    rewrite !w32_w32. rewrite !(w32_lit (v * 4 * 4096 + 65536 + 16777216)) by (change (2 ^ 31) with 2147483648; lia).
    rewrite Z.shiftr_div_pow2 by lia. change (2 ^ 17) with 131072. replace ((v * 4 * 4096 + 65536 + 16777216) / 131072) with ((v + 4) / 8 + 128) by lia. reflexivity. }
  unfold idct4_values, idct_temp_row. cbn [seq map]. rewrite !C by lia. cbn [Nat.eqb repeat nth]. rewrite R. reflexivity.
Qed.
Lemma flat2 : forall coefs quant, flat coefs -> let v := nth 0 coefs 0 * nth 0 quant 0 in - 2 ^ 16 < v < 2 ^ 16 ->
  idct2_values coefs quant = repeat (repeat ((v + 4) / 8 + 128) 2) 2.
Proof.
  intros coefs quant D v Hv. change (2 ^ 16) with 65536 in Hv. unfold idct2_values, at64. rewrite (D 8%nat), (D 1%nat), (D 9%nat) by lia.
  assert (Ed : dequant (nth 0 coefs 0) (nth 0 quant 0) = v) by (unfold dequant; fold v; apply w32_lit; change (2 ^ 31) with 2147483648; lia). rewrite Ed.
  unfold dequant, wadd, wsub, wshr. simp0.
  rewrite !(w32_lit v) by (change (2 ^ 31) with 2147483648; lia). rewrite !(w32_lit (v + 4)) by (change (2 ^ 31) with 2147483648; lia).
  rewrite !w32_w32. rewrite !(w32_lit (v + 4 + 1024)) by (change (2 ^ 31) with 2147483648; lia). rewrite Z.shiftr_div_pow2 by lia. change (2 ^ 3) with 8.
  replace ((v + 4 + 1024) / 8) with ((v + 4) / 8 + 128) by lia. reflexivity.
Qed.
Lemma clamp_repeat : forall dbg n m x, -256 <= x <= 767 -> mapM (mapM (stbi_clamp dbg)) (repeat (repeat x n) m) = Ok (repeat (repeat (sat x) n) m).
Proof.
  intros dbg n m x H. assert (R : mapM (stbi_clamp dbg) (repeat x n) = Ok (repeat (sat x) n)).
  { induction n as [|n IH]; [reflexivity|]. cbn [repeat mapM]. rewrite (stbi_clamp_sat dbg x H). cbn [bind]. rewrite IH. reflexivity. }
  induction m as [|m IH]; [reflexivity|]. cbn [repeat mapM]. rewrite R. cbn [bind]. rewrite IH. reflexivity.
Qed.
Lemma flat_scales : forall dbg scale coefs quant stride off p, In scale [2; 4; 8] -> flat coefs ->
  let v := nth 0 coefs 0 * nth 0 quant 0 in -256 <= (v + 4) / 8 + 128 <= 767 ->
  0 <= off -> scale <= stride -> off + (scale - 1) * stride + scale <= lenZ p ->
  exists p', idct_block dbg scale coefs quant stride off p = Ok p' /\
    written off stride scale (repeat (repeat (sat ((v + 4) / 8 + 128)) (Z.to_nat scale)) (Z.to_nat scale)) p p'.
Proof.
  intros dbg scale coefs quant stride off p I D v Hv Ho Hs Fit.
  destruct (scale_total scale coefs quant) as [rows [SR [_ W]]]; [destruct I as [<-|[<-|[<-|[]]]]; cbn; auto|].
  destruct (W dbg stride off p Ho Hs Fit) as [p' [E Wr]]. exists p'. split; [exact E|].
  assert (Hv2 : - 2 ^ 16 < v < 2 ^ 16) by (change (2 ^ 16) with 65536; lia).
  enough (Er : rows = repeat (repeat (sat ((v + 4) / 8 + 128)) (Z.to_nat scale)) (Z.to_nat scale)) by (rewrite <- Er; exact Wr).
  unfold scale_rows in SR. destruct I as [<-|[<-|[<-|[]]]]; cbn [Z.eqb Pos.eqb] in SR; specialize (SR dbg).
  - rewrite (flat2 coefs quant D Hv2) in SR. rewrite clamp_repeat in SR by exact Hv. injection SR as <-. reflexivity.
  - rewrite (flat4 coefs quant D Hv2) in SR. rewrite clamp_repeat in SR by exact Hv. injection SR as <-. reflexivity.
  - destruct (flat_block dbg coefs quant D) as [s [Es Vs]]. rewrite SR in Es. injection Es as ->. cbv zeta in Vs. rewrite (Vs Hv). reflexivity.
Qed.
(** One sample: truncated, not rounded. *)
Lemma one_sample : forall dbg coefs quant stride off p, let v := nth 0 coefs 0 * nth 0 quant 0 in -1024 <= v <= 5000 -> 0 <= off < lenZ p -> 1 <= stride ->
  exists p', idct_block dbg 1 coefs quant stride off p = Ok p' /\ written off stride 1 [[sat (v / 8 + 128)]] p p'.
Proof.
  intros dbg coefs quant stride off p v Hv Ho Hs. destruct (scale_total 1 coefs quant) as [rows [SR [_ W]]]; [cbn; auto|].
  destruct (W dbg stride off p ltac:(lia) ltac:(lia) ltac:(lia)) as [p' [E Wr]]. exists p'. split; [exact E|].
  enough (Er : rows = [[sat (v / 8 + 128)]]) by (rewrite <- Er; exact Wr).
  unfold scale_rows in SR. cbn [Z.eqb Pos.eqb] in SR. specialize (SR dbg). unfold idct1_value, at64, dequant, wadd in SR. fold v in SR.
  rewrite (w32_lit v) in SR by (change (2 ^ 31) with 2147483648; lia). rewrite (w32_lit (v + 128 * 8)) in SR by (change (2 ^ 31) with 2147483648; lia).
  rewrite Z.quot_div_nonneg in SR by lia. replace ((v + 128 * 8) / 8) with (v / 8 + 128) in SR by lia. cbn [mapM] in SR. rewrite stbi_clamp_sat in SR by lia. injection SR as <-. reflexivity.
Qed.

(** ** The choice of the size *)
Lemma scaled_spec : forall dbg len s, 1 <= len <= 65535 -> In s [1; 2; 4] -> exists r, idct_scaled dbg len s = Ok r /\ scaled_length len s r.
Proof.
  intros dbg len s Hl I. assert (Hs : 1 <= s <= 4) by (destruct I as [<-|[<-|[<-|[]]]]; lia). unfold idct_scaled, usub.
  assert (P : 1 <= len * s <= 262140) by nia. destruct (len * s <? 1) eqn:E; [lia|]. cbn [bind].
  exists ((len * s - 1) / 8 + 1). split; [|unfold scaled_length; lia]. unfold wrap. rewrite ?Z.mod_small; [reflexivity|change (2 ^ 16) with 65536; lia].
Qed.
Lemma choose_spec : forall dbg fw fh rw rh, 1 <= fw <= 65535 -> 1 <= fh <= 65535 -> exists s,
  choose_idct_size dbg fw fh rw rh = Ok s /\ In s [1; 2; 4; 8] /\ (s = 8 \/ covered fw fh rw rh s) /\
  forall s', In s' [1; 2; 4; 8] -> s' < s -> ~ covered fw fh rw rh s'.
Proof.
  intros dbg fw fh rw rh Hw Hh.
  assert (U : forall len s a b, scaled_length len s a -> scaled_length len s b -> a = b) by (unfold scaled_length; intros; lia).
  assert (L : forall scales, (forall s, In s scales -> In s [1; 2; 4]) -> exists s, choose_idct_loop dbg fw fh rw rh scales = Ok s /\
     ((s = 8 /\ forall s', In s' scales -> ~ covered fw fh rw rh s') \/ (exists a b, scales = a ++ s :: b /\ covered fw fh rw rh s /\ forall s', In s' a -> ~ covered fw fh rw rh s'))).
  { induction scales as [|s scales IH]; intros I; cbn [choose_idct_loop]; [exists 8; split; [reflexivity|left; split; [reflexivity|intros ? []]]|].
    destruct (scaled_spec dbg fw s Hw (I s (or_introl eq_refl))) as [w [Ew Sw]]. destruct (scaled_spec dbg fh s Hh (I s (or_introl eq_refl))) as [h [Eh Sh]]. rewrite Ew, Eh. cbn [bind].
    assert (Y : rw <= w \/ rh <= h -> covered fw fh rw rh s) by (intros; exists w, h; auto).
    assert (N : w < rw -> h < rh -> ~ covered fw fh rw rh s).
    { intros A B [w' [h' [Sw' [Sh' C]]]]. rewrite (U _ _ _ _ Sw' Sw), (U _ _ _ _ Sh' Sh) in C. lia. }
    destruct (rw <=? w) eqn:C1; [exists s; split; [reflexivity|right; exists [], scales; splits; [reflexivity|apply Y; lia|intros ? []]]|].
    destruct (rh <=? h) eqn:C2; [exists s; split; [reflexivity|right; exists [], scales; splits; [reflexivity|apply Y; lia|intros ? []]]|].
    destruct (IH (fun x Hx => I x (or_intror Hx))) as [r [E D]]. exists r. split; [exact E|]. destruct D as [[-> D]|[a [b [-> [D1 D2]]]]].
    - left. split; [reflexivity|]. intros s' [<-|Hi]; [apply N; lia|auto].
    - right. exists (s :: a), b. splits; auto. intros s' [<-|Hi]; [apply N; lia|auto]. }
  destruct (L [1; 2; 4] ltac:(auto)) as [s [E D]]. exists s. split; [exact E|]. destruct D as [[-> D]|[a [b [Eq [D1 D2]]]]].
  - splits; [cbn; auto|auto|]. intros s' I Lt. apply D. cbn in *. lia.
  - assert (Is : In s [1; 2; 4]) by (rewrite Eq; apply in_or_app; right; left; reflexivity). splits; [cbn in *; lia|auto|].
    intros s' I Lt. apply D2. destruct a as [|a1 [|a2 [|a3 a]]]; cbn in Eq; try discriminate; injection Eq; intros; subst; cbn in *; try lia.
Qed.

(** ** What the reduced transforms compute *)
Ltac nowrap := repeat match goal with |- context [w32 ?x] => lazymatch x with context [w32] => fail | _ => rewrite (w32_lit x) by (change (2 ^ 31) with 2147483648; lia) end end.
Lemma idct2_exact : forall coefs quant, (forall k, Z.abs (nth k coefs 0 * nth k quant 0) <= 2 ^ 28) ->
  idct2_values coefs quant = map (fun y => map (fun x => (ideal2 coefs quant y x + 4) / 8 + 128) (seq 0 2)) (seq 0 2).
Proof.
  intros coefs quant B. change (2 ^ 28) with 268435456 in B. unfold idct2_values, at64, dequant, ideal2. cbn [seq map Nat.eqb].
  pose proof (B 0%nat) as B0. pose proof (B 8%nat) as B8. pose proof (B 1%nat) as B1. pose proof (B 9%nat) as B9. clear B.
  set (f0 := nth 0 coefs 0 * nth 0 quant 0) in *. set (f8 := nth 8 coefs 0 * nth 8 quant 0) in *. set (f1 := nth 1 coefs 0 * nth 1 quant 0) in *. set (f9 := nth 9 coefs 0 * nth 9 quant 0) in *.
  clearbody f0 f8 f1 f9. cbv zeta. unfold wadd, wsub, wshr. nowrap. rewrite !Z.shiftr_div_pow2 by lia. change (2 ^ 3) with 8.
  repeat (apply cons_eq; [repeat (apply cons_eq; [lia|]); reflexivity|]). reflexivity.
Qed.
Lemma idct4_column_near : forall coefs quant i, (forall k, Z.abs (nth k coefs 0 * nth k quant 0) <= 8000) ->
  forall y, (y < 4)%nat -> let t := nth y (idct4_column coefs quant i) 0 in
    Z.abs (1024 * t - sum4 (fun v => m4 y v * (nth (i + 8 * v) coefs 0 * nth (i + 8 * v) quant 0))) <= 512.
Proof.
  intros coefs quant i B y Hy. unfold idct4_column, at64, dequant, sum4. destruct K_values as [-> [-> [-> _]]].
  pose proof (B (i + 8 * 0)%nat) as B0. pose proof (B (i + 8 * 1)%nat) as B1. pose proof (B (i + 8 * 2)%nat) as B2. pose proof (B (i + 8 * 3)%nat) as B3. clear B.
  set (f0 := nth (i + 8 * 0) coefs 0 * nth (i + 8 * 0) quant 0) in *. set (f1 := nth (i + 8 * 1) coefs 0 * nth (i + 8 * 1) quant 0) in *.
  set (f2 := nth (i + 8 * 2) coefs 0 * nth (i + 8 * 2) quant 0) in *. set (f3 := nth (i + 8 * 3) coefs 0 * nth (i + 8 * 3) quant 0) in *.
  clearbody f0 f1 f2 f3. cbv zeta. unfold wadd, wsub, wmul, wshl, wshr. nowrap. rewrite !Z.shiftr_div_pow2, !Z.shiftl_mul_pow2 by lia. change (2 ^ 10) with 1024. change (2 ^ 2) with 4.
  nowrap. destruct y as [|[|[|[|y]]]]; [| | | |lia]; cbn [nth m4 M4]; lia.
Qed.
Lemma idct4_row_near : forall t0 t1 t2 t3, Z.abs t0 <= 130000 -> Z.abs t1 <= 130000 -> Z.abs t2 <= 130000 -> Z.abs t3 <= 130000 -> forall x, (x < 4)%nat ->
  nth x (idct4_row [t0; t1; t2; t3]) 0 = (65536 + (m4 x 0 * t0 + m4 x 1 * t1 + m4 x 2 * t2 + m4 x 3 * t3)) / 131072 + 128.
Proof.
  intros t0 t1 t2 t3 B0 B1 B2 B3 x Hx. unfold idct4_row. destruct K_values as [-> [-> [-> _]]]. unfold wadd, wsub, wmul, wshl, wshr. change (128 * 2 ^ 17) with 16777216.
  nowrap. rewrite !Z.shiftl_mul_pow2 by lia. change (2 ^ 12) with 4096. nowrap. rewrite !Z.shiftr_div_pow2 by lia. change (2 ^ 17) with 131072.
  destruct x as [|[|[|[|x]]]]; [| | | |lia]; cbn [nth m4 M4]; lia.
Qed.
Lemma idct4_near : forall coefs quant, (forall k, Z.abs (nth k coefs 0 * nth k quant 0) <= 8000) -> forall y x, (y < 4)%nat -> (x < 4)%nat ->
  Z.abs (2 ^ 27 * (nth x (nth y (idct4_values coefs quant) []) 0 - 128) - ideal4 coefs quant y x) <= 2 ^ 26 + 2 ^ 23.
Proof.
  intros coefs quant B y x Hy Hx. unfold idct4_values.
  assert (R : nth y (map (fun r => idct4_row (idct_temp_row (map (idct4_column coefs quant) (seq 0 4)) r)) (seq 0 4)) [] =
    idct4_row [nth y (idct4_column coefs quant 0) 0; nth y (idct4_column coefs quant 1) 0; nth y (idct4_column coefs quant 2) 0; nth y (idct4_column coefs quant 3) 0])
    by (destruct y as [|[|[|[|y]]]]; [reflexivity|reflexivity|reflexivity|reflexivity|lia]). rewrite R. clear R. unfold ideal4, sum4 at 1.
  assert (C : forall i, Z.abs (sum4 (fun v => m4 y v * (nth (i + 8 * v) coefs 0 * nth (i + 8 * v) quant 0))) <= 15761 * 8000).
  { intros i. pose proof (B (i + 8 * 0)%nat). pose proof (B (i + 8 * 1)%nat). pose proof (B (i + 8 * 2)%nat). pose proof (B (i + 8 * 3)%nat). unfold sum4. destruct y as [|[|[|[|y]]]]; [| | | |lia]; cbn [nth m4 M4]; lia. }
  pose proof (idct4_column_near coefs quant 0 B y Hy) as N0. pose proof (idct4_column_near coefs quant 1 B y Hy) as N1.
  pose proof (idct4_column_near coefs quant 2 B y Hy) as N2. pose proof (idct4_column_near coefs quant 3 B y Hy) as N3. cbv zeta in N0, N1, N2, N3.
  pose proof (C 0%nat) as C0. pose proof (C 1%nat) as C1. pose proof (C 2%nat) as C2. pose proof (C 3%nat) as C3. clear C B.
  remember (sum4 (fun v => m4 y v * (nth (0 + 8 * v) coefs 0 * nth (0 + 8 * v) quant 0))) as S0 eqn:E0. remember (sum4 (fun v => m4 y v * (nth (1 + 8 * v) coefs 0 * nth (1 + 8 * v) quant 0))) as S1 eqn:E1.
  remember (sum4 (fun v => m4 y v * (nth (2 + 8 * v) coefs 0 * nth (2 + 8 * v) quant 0))) as S2 eqn:E2. remember (sum4 (fun v => m4 y v * (nth (3 + 8 * v) coefs 0 * nth (3 + 8 * v) quant 0))) as S3 eqn:E3.
  clear E0 E1 E2 E3. set (t0 := nth y (idct4_column coefs quant 0) 0) in *. set (t1 := nth y (idct4_column coefs quant 1) 0) in *. set (t2 := nth y (idct4_column coefs quant 2) 0) in *. set (t3 := nth y (idct4_column coefs quant 3) 0) in *.
  clearbody t0 t1 t2 t3. rewrite idct4_row_near by lia. change (2 ^ 27) with 134217728. change (2 ^ 26) with 67108864. change (2 ^ 23) with 8388608.
  destruct x as [|[|[|[|x]]]]; [| | | |lia]; cbn [nth m4 M4]; lia.
Qed.
Lemma mapM_nth : forall (f : Z -> out Z) l l', mapM f l = Ok l' -> forall k, (k < length l)%nat -> f (nth k l 0) = Ok (nth k l' 0).
Proof.
  intros f. induction l as [|a l IH]; intros l' E k Hk; cbn [length] in Hk; [lia|]. cbn [mapM] in E. destruct (f a) as [b| | |] eqn:Ea; try discriminate. cbn [bind] in E.
  destruct (mapM f l) as [l2| | |] eqn:El; try discriminate. cbn [bind] in E. injection E as <-. destruct k; [exact Ea|]. cbn [nth]. apply IH; [reflexivity|lia].
Qed.
Lemma mapM_nth2 : forall (f : Z -> out Z) l l', mapM (mapM f) l = Ok l' -> forall k j, (k < length l)%nat -> (j < length (nth k l []))%nat -> f (nth j (nth k l []) 0) = Ok (nth j (nth k l' []) 0).
Proof.
  intros f. induction l as [|a l IH]; intros l' E k j Hk Hj; cbn [length] in Hk; [lia|]. cbn [mapM] in E. destruct (mapM f a) as [b| | |] eqn:Ea; try discriminate. cbn [bind] in E.
  destruct (mapM (mapM f) l) as [l2| | |] eqn:El; try discriminate. cbn [bind] in E. injection E as <-. destruct k; [exact (mapM_nth f a b Ea j Hj)|]. cbn [nth] in *. apply IH; [reflexivity|lia|exact Hj].
Qed.
Lemma scale4_near : forall coefs quant, (forall k, Z.abs (nth k coefs 0 * nth k quant 0) <= 8000) ->
  exists rows, square 4 rows /\
   (forall dbg stride off p, 0 <= off -> 4 <= stride -> off + 3 * stride + 4 <= lenZ p -> exists p', idct_block dbg 4 coefs quant stride off p = Ok p' /\ written off stride 4 rows p p') /\
   forall y x, (y < 4)%nat -> (x < 4)%nat -> exists v, Z.abs (2 ^ 27 * (v - 128) - ideal4 coefs quant y x) <= 2 ^ 26 + 2 ^ 23 /\
     (-256 <= v <= 767 -> nth x (nth y rows []) 0 = sat v).
Proof.
  intros coefs quant B. destruct (scale_total 4 coefs quant) as [rows [SR [Sq W]]]; [cbn; auto|]. exists rows. split; [exact Sq|]. split; [exact W|]. intros y x Hy Hx.
  exists (nth x (nth y (idct4_values coefs quant) []) 0). split; [apply idct4_near; auto|]. intros R. unfold scale_rows in SR. cbn [Z.eqb Pos.eqb] in SR. specialize (SR true).
  pose proof (mapM_nth2 _ _ _ SR y x) as Q. assert (L1 : (y < length (idct4_values coefs quant))%nat) by (exact Hy).
  assert (L2 : (x < length (nth y (idct4_values coefs quant) []))%nat) by (destruct y as [|[|[|[|y]]]]; [exact Hx|exact Hx|exact Hx|exact Hx|lia]).
  specialize (Q L1 L2). rewrite stbi_clamp_sat in Q by exact R. congruence.
Qed.
Lemma scale2_exact : forall coefs quant, (forall k, Z.abs (nth k coefs 0 * nth k quant 0) <= 2 ^ 28) ->
  exists rows, square 2 rows /\
   (forall dbg stride off p, 0 <= off -> 2 <= stride -> off + 1 * stride + 2 <= lenZ p -> exists p', idct_block dbg 2 coefs quant stride off p = Ok p' /\ written off stride 2 rows p p') /\
   forall y x, (y < 2)%nat -> (x < 2)%nat -> let v := (ideal2 coefs quant y x + 4) / 8 + 128 in -256 <= v <= 767 -> nth x (nth y rows []) 0 = sat v.
Proof.
  intros coefs quant B. destruct (scale_total 2 coefs quant) as [rows [SR [Sq W]]]; [cbn; auto|]. exists rows. split; [exact Sq|]. split; [exact W|]. intros y x Hy Hx v R.
  unfold scale_rows in SR. cbn [Z.eqb Pos.eqb] in SR. specialize (SR true). rewrite (idct2_exact coefs quant B) in SR.
  pose proof (mapM_nth2 _ _ _ SR y x) as Q. cbn [seq map length] in Q. specialize (Q Hy ltac:(destruct y as [|[|y]]; [exact Hx|exact Hx|lia])).
  assert (E : nth x (nth y [[(ideal2 coefs quant 0 0 + 4) / 8 + 128; (ideal2 coefs quant 0 1 + 4) / 8 + 128]; [(ideal2 coefs quant 1 0 + 4) / 8 + 128; (ideal2 coefs quant 1 1 + 4) / 8 + 128]] []) 0 = v)
    by (destruct y as [|[|y]], x as [|[|x]]; try lia; reflexivity). rewrite E in Q. rewrite stbi_clamp_sat in Q by exact R. congruence.
Qed.
