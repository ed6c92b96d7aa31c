(** Clamping and colour conversion. *)
From Verif Require Import Base Tactics SpecBits Clamp Idct Color SpecColor.

Lemma clamp_table : CLAMP_TABLE = repeat 0 256 ++ zrange 256 ++ repeat 255 512.
Proof. vm_compute. reflexivity. Qed.

Lemma clamp_length : lenZ CLAMP_TABLE = 1024.
Proof. reflexivity. Qed.

Lemma clamp_nth : forall i, 0 <= i < 1024 -> nth_error CLAMP_TABLE (Z.to_nat i) = Some (sat (i - 256)).
Proof.
  intros i H. rewrite clamp_table. unfold sat.
  destruct (Z_lt_ge_dec i 256).
  - rewrite nth_error_app1 by (rewrite repeat_length; lia). rewrite nth_error_repeat by lia. f_equal. lia.
  - rewrite nth_error_app2 by (rewrite repeat_length; lia). rewrite repeat_length.
    destruct (Z_lt_ge_dec i 512).
    + rewrite nth_error_app1 by (rewrite zrange_length; lia).
      rewrite (nth_error_nth' _ 0) by (rewrite zrange_length; lia). rewrite nth_zrange by lia. f_equal. lia.
    + rewrite nth_error_app2 by (rewrite zrange_length; lia). rewrite zrange_length.
      rewrite nth_error_repeat by lia. f_equal. lia.
Qed.

Lemma index_unchecked_clamp : forall i, 0 <= i < 1024 -> index_unchecked CLAMP_TABLE i = Ok (sat (i - 256)).
Proof. intros i H. unfold index_unchecked. replace (i <? 0) with false by lia. rewrite clamp_nth by auto. reflexivity. Qed.

Lemma sat_byte : forall x, is_byte (sat x).
Proof. intros. unfold sat, is_byte. lia. Qed.

Lemma land_1023 : forall x, Z.land x 1023 = x mod 1024.
Proof. intros. change 1023 with (Z.ones 10). rewrite Z.land_ones by lia. reflexivity. Qed.

(** Every i32 argument: the table is indexed in bounds; only bits 0..9 of x + 256 count. *)
Lemma stbi_clamp_any : forall dbg x, x + 256 < 2 ^ 31 \/ dbg = false ->
  stbi_clamp dbg x = Ok (sat ((x + 256) mod 1024 - 256)).
Proof.
  intros dbg x H. unfold stbi_clamp. destruct (2 ^ 31 <=? x + 256) eqn:E.
  - destruct H as [H| ->]; [lia|]. cbn [bind]. rewrite land_1023.
    assert (M : w32 (x + 256) mod 1024 = (x + 256) mod 1024).
    { unfold w32, swrap. change (2 ^ (32 - 1)) with (2097152 * 1024). change (2 ^ 32) with (4194304 * 1024).
      lia. }
    rewrite M. apply index_unchecked_clamp. lia.
  - cbn [bind]. rewrite land_1023. apply index_unchecked_clamp. lia.
Qed.

Lemma stbi_clamp_sat : forall dbg x, -256 <= x <= 767 -> stbi_clamp dbg x = Ok (sat x).
Proof.
  intros dbg x H. rewrite stbi_clamp_any by (left; change (2 ^ 31) with 2147483648; lia).
  rewrite Z.mod_small by lia. do 2 f_equal. lia.
Qed.

Lemma ycc_clamp_sat : forall dbg x, -256 <= x <= 767 -> ycc_clamp dbg x = Ok (sat x).
Proof.
  intros dbg x H. unfold ycc_clamp, debug_assert. rewrite clamp_length.
  replace ((0 <=? x + 256) && (x + 256 <? 1024)) with true by lia.
  rewrite index_unchecked_clamp by lia. replace (x + 256 - 256) with x by lia. destruct dbg; reflexivity.
Qed.

(** ** YCbCr *)
Lemma fix_lits : fix_lit 140200 = 91881 /\ fix_lit 177200 = 116130 /\ fix_lit 71414 = 46802 /\ fix_lit 34414 = 22554.
Proof. repeat split. Qed.

Lemma cr_to_r_sweep : forallb (fun cr => Z.abs (100000 * cr_to_r cr - 140200 * (cr - 128)) <=? 50000) (zrange 256) = true.
Proof. vm_compute. reflexivity. Qed.
Lemma cb_to_b_sweep : forallb (fun cb => Z.abs (100000 * cb_to_b cb - 177200 * (cb - 128)) <=? 50000) (zrange 256) = true.
Proof. vm_compute. reflexivity. Qed.

Lemma cr_to_r_ok : forall cr, is_byte cr -> Z.abs (100000 * cr_to_r cr - 140200 * (cr - 128)) <= 50000.
Proof. intros cr H. pose proof (zsweep _ _ cr_to_r_sweep cr H). cbn beta in H0. lia. Qed.
Lemma cb_to_b_ok : forall cb, is_byte cb -> Z.abs (100000 * cb_to_b cb - 177200 * (cb - 128)) <= 50000.
Proof. intros cb H. pose proof (zsweep _ _ cb_to_b_sweep cb H). cbn beta in H0. lia. Qed.

Definition g_of (cb cr : Z) : Z := Z.shiftr (cb_to_g cb + cr_to_g cr) SCALEBITS.
Lemma g_ok : forall cb cr, is_byte cb -> is_byte cr ->
  Z.abs (100000 * g_of cb cr + 34414 * (cb - 128) + 71414 * (cr - 128)) <= 50120.
Proof.
  intros cb cr Hb Hr. unfold g_of, cb_to_g, cr_to_g, SCALEBITS, ONE_HALF, is_byte in *.
  destruct fix_lits as [_ [_ [-> ->]]]. rewrite Z.shiftr_div_pow2 by lia. change (2 ^ 16) with 65536. change (2 ^ 15) with 32768. lia.
Qed.

Lemma ycbcr_pixel : forall dbg y cb cr, is_byte y -> is_byte cb -> is_byte cr ->
  ycbcr_to_rgb dbg y cb cr = Ok (sat (y + cr_to_r cr), sat (y + g_of cb cr), sat (y + cb_to_b cb)).
Proof.
  intros dbg y cb cr Hy Hb Hr. pose proof (cr_to_r_ok cr Hr). pose proof (cb_to_b_ok cb Hb). pose proof (g_ok cb cr Hb Hr).
  unfold is_byte in *. unfold ycbcr_to_rgb. fold (g_of cb cr). rewrite !ycc_clamp_sat by lia. reflexivity.
Qed.

Lemma ycbcr_bt601 : forall dbg y cb cr, is_byte y -> is_byte cb -> is_byte cr ->
  exists r g b, ycbcr_to_rgb dbg y cb cr = Ok (r, g, b) /\
    rounds_to 0 (bt_r y cb cr) r /\ rounds_to 120 (bt_g y cb cr) g /\ rounds_to 0 (bt_b y cb cr) b.
Proof.
  intros dbg y cb cr Hy Hb Hr. pose proof (cr_to_r_ok cr Hr). pose proof (cb_to_b_ok cb Hb). pose proof (g_ok cb cr Hb Hr).
  eexists _, _, _. split; [apply ycbcr_pixel; auto|]. unfold rounds_to, bt_r, bt_g, bt_b.
  splits; eexists; (split; [|reflexivity]); lia.
Qed.

(** ** Lines *)
Fixpoint zip3 (f : Z -> Z -> Z -> list Z) (a b c : list Z) : list Z :=
  match a, b, c with
  | x :: a, y :: b, z :: c => f x y z ++ zip3 f a b c
  | _, _, _ => []
  end.

Definition rgb_of (y cb cr : Z) : list Z := [sat (y + cr_to_r cr); sat (y + g_of cb cr); sat (y + cb_to_b cb)].

Lemma firstn_S_cons : forall A n (x : A) l, firstn (S n) (x :: l) = x :: firstn n l.
Proof. reflexivity. Qed.

Lemma repeat_mul3 : forall (v : Z) w, repeat v (3 * S w) = v :: v :: v :: repeat v (3 * w).
Proof. intros. replace (3 * S w)%nat with (S (S (S (3 * w)))) by lia. reflexivity. Qed.
Lemma repeat_mul4 : forall (v : Z) w, repeat v (4 * S w) = v :: v :: v :: v :: repeat v (4 * w).
Proof. intros. replace (4 * S w)%nat with (S (S (S (S (4 * w))))) by lia. reflexivity. Qed.

Lemma line_ycbcr_ok : forall dbg w a b c v ta tb tc, bytes a -> bytes b -> bytes c ->
  length a = w -> length b = w -> length c = w ->
  line_ycbcr dbg (repeat v (3 * w)) (line_of a ++ ta) (line_of b ++ tb) (line_of c ++ tc) = Ok (zip3 rgb_of a b c).
Proof.
  intros dbg. induction w as [|w IH]; intros a b c v ta tb tc A B C La Lb Lc.
  - destruct a, b, c; try discriminate. reflexivity.
  - destruct a as [|x a], b as [|y b], c as [|z c]; try discriminate. inv A. inv B. inv C.
    rewrite repeat_mul3. cbn [line_of map app line_ycbcr read bind]. rewrite ycbcr_pixel by auto. cbn [bind].
    unfold line_of in IH. rewrite IH by (auto; cbn in *; lia). reflexivity.
Qed.

Fixpoint zip4 (f : Z -> Z -> Z -> Z -> list Z) (a b c e : list Z) : list Z :=
  match a, b, c, e with
  | x :: a, y :: b, z :: c, k :: e => f x y z k ++ zip4 f a b c e
  | _, _, _, _ => []
  end.
Definition cmyk_of (c m y k : Z) : list Z := [255 - c; 255 - m; 255 - y; 255 - k].

Lemma line_cmyk_ok : forall w a b c e v ta tb tc te, length a = w -> length b = w -> length c = w -> length e = w ->
  line_cmyk (repeat v (4 * w)) (line_of a ++ ta) (line_of b ++ tb) (line_of c ++ tc) (line_of e ++ te) = Ok (zip4 cmyk_of a b c e).
Proof.
  induction w as [|w IH]; intros a b c e v ta tb tc te La Lb Lc Le.
  - destruct a, b, c, e; try discriminate. reflexivity.
  - destruct a as [|x a], b as [|y b], c as [|z c], e as [|k e]; try discriminate.
    rewrite repeat_mul4. cbn [line_of map app line_cmyk read bind].
    unfold line_of in IH. rewrite IH by (cbn in *; lia). reflexivity.
Qed.

(** The i-th pixel of a converted line. *)
Lemma nth3 : forall (l : list Z) i d, (3 * i + 3 <= length l)%nat ->
  firstn 3 (skipn (3 * i) l) = [nth (3 * i) l d; nth (3 * i + 1) l d; nth (3 * i + 2) l d].
Proof.
  intros l i. revert l. induction i as [|i IH]; intros l d H.
  - destruct l as [|x [|y [|z l]]]; cbn in H; try lia. reflexivity.
  - destruct l as [|x [|y [|z l]]]; cbn [length] in H; try lia.
    replace (3 * S i)%nat with (S (S (S (3 * i)))) by lia. cbn [skipn nth Nat.add]. apply IH. lia.
Qed.

Lemma zip3_length : forall a b c w, length a = w -> length b = w -> length c = w -> length (zip3 rgb_of a b c) = (3 * w)%nat.
Proof.
  induction a as [|x a IH]; intros b c w La Lb Lc; destruct b, c; cbn in *; subst; try lia.
  rewrite (IH b c (length a)); lia.
Qed.

Lemma zip3_pixel : forall a b c i w, length a = w -> length b = w -> length c = w -> (i < w)%nat ->
  firstn 3 (skipn (3 * i) (zip3 rgb_of a b c)) = rgb_of (nth i a 0) (nth i b 0) (nth i c 0).
Proof.
  induction a as [|x a IH]; intros b c i w La Lb Lc Hi; destruct b, c; cbn [length] in *; subst; try lia.
  destruct i as [|i]; [reflexivity|].
  replace (3 * S i)%nat with (S (S (S (3 * i)))) by lia. cbn [zip3 rgb_of app skipn nth]. apply (IH _ _ _ (length a)); lia.
Qed.

Lemma zip4_length : forall a b c e w, length a = w -> length b = w -> length c = w -> length e = w ->
  length (zip4 cmyk_of a b c e) = (4 * w)%nat.
Proof.
  induction a as [|x a IH]; intros b c e w La Lb Lc Le; destruct b, c, e; cbn in *; subst; try lia.
  rewrite (IH b c e (length a)); lia.
Qed.

Lemma zip4_pixel : forall a b c e i w, length a = w -> length b = w -> length c = w -> length e = w -> (i < w)%nat ->
  firstn 4 (skipn (4 * i) (zip4 cmyk_of a b c e)) = cmyk_of (nth i a 0) (nth i b 0) (nth i c 0) (nth i e 0).
Proof.
  induction a as [|x a IH]; intros b c e i w La Lb Lc Le Hi; destruct b, c, e; cbn [length] in *; subst; try lia.
  destruct i as [|i]; [reflexivity|].
  replace (4 * S i)%nat with (S (S (S (S (4 * i))))) by lia. cbn [zip4 cmyk_of app skipn nth]. apply (IH _ _ _ _ (length a)); lia.
Qed.

Lemma rgb_of_fixed : forall y cb cr, rgb_of y cb cr = rgb_fixed y cb cr.
Proof.
  intros y cb cr. unfold rgb_of, rgb_fixed, cr_to_r, cb_to_b, g_of, cb_to_g, cr_to_g, SCALEBITS, ONE_HALF.
  change (fix_lit 140200) with 91881. change (fix_lit 177200) with 116130. change (fix_lit 71414) with 46802. change (fix_lit 34414) with 22554.
  rewrite !Z.shiftr_div_pow2 by lia. change (2 ^ 16) with 65536. change (2 ^ 15) with 32768.
  replace (- (22554) * (cb - 128) + 32768 + - (46802) * (cr - 128)) with (-22554 * (cb - 128) - 46802 * (cr - 128) + 32768) by lia. reflexivity.
Qed.
Lemma ycbcr_fixed : forall dbg y cb cr, is_byte y -> is_byte cb -> is_byte cr ->
  exists r g b, ycbcr_to_rgb dbg y cb cr = Ok (r, g, b) /\ [r; g; b] = rgb_fixed y cb cr.
Proof. intros dbg y cb cr Hy Hb Hr. rewrite ycbcr_pixel by auto. eexists _, _, _. split; [reflexivity|]. apply rgb_of_fixed. Qed.

Lemma rgb_of_pixel : forall y cb cr, is_byte y -> is_byte cb -> is_byte cr -> rgb_pixel y cb cr (rgb_of y cb cr).
Proof.
  intros y cb cr Hy Hb Hr. destruct (ycbcr_bt601 false y cb cr Hy Hb Hr) as [r [g [b [E R]]]].
  rewrite ycbcr_pixel in E by auto. inv E. split; [apply rgb_of_fixed|]. unfold rgb_of. eauto 10.
Qed.

Lemma bytes_nth : forall l i, bytes l -> is_byte (nth i l 0).
Proof. intros. apply Forall_nth_d; auto. unfold is_byte; lia. Qed.

Lemma convert_ycbcr : forall dbg t width y cb cr, t <> Some AdobeUnknown -> bytes y -> bytes cb -> bytes cr ->
  length y = width -> length cb = width -> length cr = width ->
  exists f line, choose_color_convert_func 3 t = Ok f /\
    (forall v ty tb tc, color_convert dbg f (repeat v (3 * width)) [line_of y ++ ty; line_of cb ++ tb; line_of cr ++ tc] = Ok line) /\
    length line = (3 * width)%nat /\
    forall i, (i < width)%nat ->
      rgb_pixel (nth i y 0) (nth i cb 0) (nth i cr 0) (firstn 3 (skipn (3 * i) line)).
Proof.
  intros dbg t width y cb cr T B1 B2 B3 L1 L2 L3. exists CYcbcr, (zip3 rgb_of y cb cr). splits.
  - unfold choose_color_convert_func. cbn [Z.eqb Pos.eqb]. destruct t as [[]|]; congruence.
  - intros. cbn [color_convert]. apply line_ycbcr_ok; auto.
  - apply zip3_length; auto.
  - intros i Hi. rewrite (zip3_pixel y cb cr i width) by auto. apply rgb_of_pixel; apply bytes_nth; auto.
Qed.

Lemma convert_cmyk : forall dbg width c m y k,
  length c = width -> length m = width -> length y = width -> length k = width ->
  exists f line, choose_color_convert_func 4 (Some AdobeUnknown) = Ok f /\
    (forall v tc tm ty tk, color_convert dbg f (repeat v (4 * width)) [line_of c ++ tc; line_of m ++ tm; line_of y ++ ty; line_of k ++ tk] = Ok line) /\
    length line = (4 * width)%nat /\
    forall i, (i < width)%nat ->
      firstn 4 (skipn (4 * i) line) = [255 - nth i c 0; 255 - nth i m 0; 255 - nth i y 0; 255 - nth i k 0].
Proof.
  intros dbg width c m y k L1 L2 L3 L4. exists CCmyk, (zip4 cmyk_of c m y k). splits.
  - reflexivity.
  - intros. cbn [color_convert]. apply line_cmyk_ok; auto.
  - apply zip4_length; auto.
  - intros i Hi. rewrite (zip4_pixel c m y k i width) by auto. reflexivity.
Qed.
