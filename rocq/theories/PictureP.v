(** Every picture has a file (C72). *)
From Coq Require Import Reals Lra.
From Verif Require Import Base Tactics SpecBits SpecMarker SpecHuffman SpecBlock SpecTables SpecFrame SpecUpsample SpecSegments SpecColor SpecIdct SpecImage SpecPlane SpecScan SpecFile SpecAnswer SpecDct SpecExact SpecFdct SpecEncoder SpecMosaic
  Huffman Idct Decode FileP IdctReal ExactP EncoderP MosaicP FdctP FdctP2.
Open Scope Z_scope.

(** ** One block of each component per MCU *)
Definition grid_mcu (n : nat) (block : nat -> qblock) : mcu := map (fun k => [block k]) (seq 0 n).
Definition grid (lines samples : Z) (n : nat) (q : list Z) (block : Z -> Z -> nat -> qblock) (transform : option Z) : image :=
  let w := mcus samples 1 in
  mkImage lines samples (repeat (1, 1) n) (repeat q n) (map (fun i => grid_mcu n (block (i / w) (i mod w))) (zrange (mcus lines 1 * w))) transform 0.
Section Grid.
  Variables (lines samples : Z) (n : nat) (q : list Z) (block : Z -> Z -> nat -> qblock) (transform : option Z).
  Hypotheses (Hl : 0 < lines < 65536) (Hs : 0 < samples < 65536) (Hn : (1 <= n <= 4)%nat) (Hq : length q = 64%nat /\ Forall (fun v => 0 <= v < 65536) q) (Hb : forall r c k, q_ok (block r c k))
    (Ht : match transform with Some t => 0 <= t <= 2 | None => True end).
  Let im := grid lines samples n q block transform.
  Lemma grid_ok : image_ok im.
  Proof using Hl Hs Hn Hq Hb Ht.
    unfold im, grid. split; cbn [im_lines im_samples im_factors im_quant im_mcus im_transform im_restart]; try lia.
    - unfold lenZ. rewrite repeat_length. lia.
    - apply Forall_forall. intros f I. apply repeat_spec in I. subst f. cbn. lia.
    - clear - Hn. destruct n as [|[|[|[|[|]]]]]; cbn; lia.
    - rewrite !repeat_length. reflexivity.
    - apply Forall_forall. intros q' I. apply repeat_spec in I. subst q'. exact Hq.
    - apply Forall_forall. intros m I. apply in_map_iff in I. destruct I as [i [<- _]]. unfold grid_mcu. generalize (block (i / mcus samples 1) (i mod mcus samples 1)). intros f. clear. generalize 0%nat. induction n as [|m IH]; intros s; [constructor|]. cbn [repeat seq map]. constructor; [reflexivity|apply IH].
    - apply Forall_forall. intros m I. apply in_map_iff in I. destruct I as [i [<- _]]. apply Forall_forall. intros qs I. apply in_map_iff in I. destruct I as [k [<- _]]. constructor; [apply Hb|constructor].
    - rewrite (map_repeat_one snd (1, 1)), (map_repeat_one fst (1, 1)), !ones by (try reflexivity; lia). unfold lenZ. rewrite map_length. change (lenZ (zrange (mcus lines 1 * mcus samples 1)) = mcus lines 1 * mcus samples 1). rewrite zrange_length.
      assert (0 <= mcus lines 1) by (unfold mcus, ceil_div; apply Z.div_pos; lia). assert (0 <= mcus samples 1) by (unfold mcus, ceil_div; apply Z.div_pos; lia). nia.
    - exact Ht.
  Qed.
  Lemma grid_full : full_resolution (fh_comps (enc_header im)) /\ length (fh_comps (enc_header im)) = n.
  Proof using.
    unfold im, grid, enc_header. cbn [fh_comps im_factors]. clear. generalize 0. induction n as [|m IH]; intros i; [split; [constructor|reflexivity]|].
    cbn [repeat enc_comps length]. destruct (IH (i + 1)) as [F L]. split; [constructor; [split; reflexivity|exact F]|congruence].
  Qed.
  Lemma grid_block : forall k y x, (k < n)%nat -> 0 <= y < lines -> 0 <= x < samples -> block_444 (im_mcus im) samples k y x = block (y / 8) (x / 8) k.
  Proof using Hl Hs Hn Ht.
    clear Hq Hb. intros k y x Hk Hy Hx. unfold im, grid, block_444. cbn [im_mcus]. set (w := mcus samples 1) in *.
    assert (W : x / 8 < w) by (unfold w, mcus, ceil_div; apply Z.div_lt_upper_bound; [lia|]; pose proof (Z.div_mod (samples + 8 * 1 - 1) (8 * 1) ltac:(lia)); pose proof (Z.mod_pos_bound (samples + 8 * 1 - 1) (8 * 1) ltac:(lia)); lia).
    assert (H : y / 8 < mcus lines 1) by (unfold mcus, ceil_div; apply Z.div_lt_upper_bound; [lia|]; pose proof (Z.div_mod (lines + 8 * 1 - 1) (8 * 1) ltac:(lia)); pose proof (Z.mod_pos_bound (lines + 8 * 1 - 1) (8 * 1) ltac:(lia)); lia).
    assert (X0 : 0 <= x / 8) by (apply Z.div_pos; lia). assert (Y0 : 0 <= y / 8) by (apply Z.div_pos; lia).
    set (i := y / 8 * w + x / 8). assert (Ei : i / w = y / 8 /\ i mod w = x / 8).
    { unfold i. rewrite Z.add_comm, Z.div_add, Z.mod_add, Z.div_small, Z.mod_small by lia. lia. }
    assert (Bi : 0 <= i < mcus lines 1 * w) by (unfold i; clear - W H X0 Y0; nia).
    rewrite (nth_indep _ [] (grid_mcu n (block (0 / w) (0 mod w)))) by (rewrite map_length; pose proof (zrange_length (mcus lines 1 * w)) as ZL; unfold lenZ in ZL; lia).
    rewrite (map_nth (fun i => grid_mcu n (block (i / w) (i mod w)))), zrange_nth by exact Bi. destruct Ei as [-> ->]. unfold grid_mcu.
    rewrite (nth_indep _ [] [block (y / 8) (x / 8) 0%nat]) by (rewrite map_length, seq_length; lia).
    rewrite (map_nth (fun k => [block (y / 8) (x / 8) k])), seq_nth by lia. reflexivity.
  Qed.
End Grid.

(** ** Rounded coefficients *)
Open Scope R_scope.
Definition rnd (x : R) : Z := Int_part (x + / 2).
Lemma rnd_near : forall x, Rabs (IZR (rnd x) - x) <= / 2.
Proof. intros x. unfold rnd. destruct (base_Int_part (x + / 2)) as [H1 H2]. apply Rabs_le. lra. Qed.
Lemma rnd_range : forall x a b, IZR a <= x <= IZR b -> (a <= rnd x <= b)%Z.
Proof.
  intros x a b [Ha Hb]. pose proof (rnd_near x) as N. assert (U : - / 2 <= IZR (rnd x) - x <= / 2) by (unfold Rabs in N; destruct (Rcase_abs _); lra).
  split; apply Z.lt_succ_r, lt_IZR; unfold Z.succ; rewrite plus_IZR; lra.
Qed.
Definition rounded_block (f : nat -> nat -> R) : qblock :=
  let F := fdct_real (fun y x => f y x - 128) in
  mkQ (rnd (F 0%nat 0%nat)) (map (fun p => rnd (F (fst p) (snd p))) (tl zigzag)).
Lemma at_map : forall order g v u, In (v, u) order -> at_position order (map g order) v u = g (v, u).
Proof.
  induction order as [|[r c] order IH]; intros g v u I; [contradiction|]. cbn [map at_position]. destruct ((r =? v) && (c =? u))%nat eqn:E.
  - apply andb_prop in E. destruct E as [E1 E2]. apply Nat.eqb_eq in E1. apply Nat.eqb_eq in E2. subst. reflexivity.
  - apply IH. destruct I as [I|I]; [|exact I]. injection I as -> ->. rewrite !Nat.eqb_refl in E. discriminate E.
Qed.
Lemma zigzag_in : forall v u, (v < 8)%nat -> (u < 8)%nat -> In (v, u) zigzag.
Proof. intros v u Hv Hu. destruct (zigzag_all v u Hv Hu) as (k & _ & E). apply nth_error_In in E. exact E. Qed.
Lemma at_ones : forall v u, (v < 8)%nat -> (u < 8)%nat -> at_position zigzag (repeat 1%Z 64) v u = 1%Z.
Proof.
  intros v u Hv Hu. replace (repeat 1%Z 64) with (map (fun _ : nat * nat => 1%Z) zigzag) by (vm_compute; reflexivity). rewrite at_map by (apply zigzag_in; assumption). reflexivity.
Qed.
Lemma rounded_quantised : forall f, quantised_block f (repeat 1%Z 64) (rounded_block f).
Proof.
  intros f v u Hv Hu. unfold spectrum, rounded_block. cbn [q_dc q_ac]. set (F := fdct_real _). rewrite at_ones by assumption. rewrite Z.mul_1_r.
  assert (E : (rnd (F 0%nat 0%nat) :: map (fun p => rnd (F (fst p) (snd p))) (tl zigzag)) = map (fun p => rnd (F (fst p) (snd p))) zigzag).
  { replace zigzag with ((0, 0)%nat :: tl zigzag) at 2 by (vm_compute; reflexivity). reflexivity. }
  rewrite E, at_map by (apply zigzag_in; assumption). cbn [fst snd]. pose proof (rnd_near (F v u)). lra.
Qed.
Lemma rounded_ok : forall f, (forall i j, (i < 8)%nat -> (j < 8)%nat -> 0 <= f i j <= 255) -> q_ok (rounded_block f).
Proof.
  intros f Hf. set (s := fun i j => f i j - 128).
  assert (EF : rsum64 (fun v u => fdct_real s v u ^ 2) <= 1024 ^ 2).
  { rewrite fdct_energy. apply (Rle_trans _ (rsum64 (fun _ _ => 16384))); [|rewrite rsum64_const; lra]. apply rsum64_le. intros i j Hi Hj. specialize (Hf i j Hi Hj). unfold s. nra. }
  assert (Each : forall v u, (v < 8)%nat -> (u < 8)%nat -> -1024 <= fdct_real s v u <= 1024).
  { intros v u Hv Hu. assert (A : Rabs (fdct_real s v u) <= 1024); [|unfold Rabs in A; destruct (Rcase_abs _); lra].
    apply square_le; [lra|]. apply (Rle_trans _ (rsum64 (fun v u => fdct_real s v u ^ 2))); [|exact EF].
    apply (rsum64_term (fun v u => fdct_real s v u ^ 2)); [|exact Hv|exact Hu]. intros. apply pow2_ge_0. }
  assert (DC : fdct_real s 0%nat 0%nat <= 1016).
  { rewrite fdct_ex. apply (Rle_trans _ (rsum64 (fun _ _ => / 8 * 127))); [|rewrite rsum64_const; lra]. apply rsum64_le. intros i j Hi Hj. unfold ex. specialize (Hf i j Hi Hj). unfold s. lra. }
  unfold q_ok, rounded_block. cbn [q_dc q_ac]. fold s. split; [|split].
  - apply rnd_range. pose proof (Each 0%nat 0%nat ltac:(lia) ltac:(lia)). lra.
  - rewrite map_length. reflexivity.
  - apply Forall_forall. intros v I. apply in_map_iff in I. destruct I as [[a b] [<- I]]. cbn [fst snd].
    assert (J : In (a, b) zigzag) by (replace zigzag with ((0, 0)%nat :: tl zigzag) by (vm_compute; reflexivity); right; exact I).
    assert (A : Forall (fun p => (fst p < 8)%nat /\ (snd p < 8)%nat) zigzag).
    { assert (G : forallb (fun p => ((fst p <? 8) && (snd p <? 8))%nat) zigzag = true) by (vm_compute; reflexivity). rewrite forallb_forall in G. apply Forall_forall. intros p Ip. specialize (G p Ip). apply andb_prop in G. destruct G as [G1 G2]. apply Nat.ltb_lt in G1. apply Nat.ltb_lt in G2. auto. }
    rewrite Forall_forall in A. destruct (A (a, b) J) as [A1 A2]. cbn [fst snd] in A1, A2. apply rnd_range. pose proof (Each a b A1 A2). lra.
Qed.

(** ** Pictures *)
Section Picture.
  Variables (lines samples : Z) (n : nat) (p : nat -> Z -> Z -> R) (transform : option Z).
  Hypotheses (Hl : (0 < lines < 65536)%Z) (Hs : (0 < samples < 65536)%Z) (Hn : (1 <= n <= 4)%nat) (Hp : forall k y x, 0 <= p k y x <= 255)
    (Ht : match transform with Some t => (0 <= t <= 2)%Z | None => True end).
  Definition picture : image :=
    grid lines samples n (repeat 1%Z 64) (fun r c k => rounded_block (fun i j => p k (8 * r + Z.of_nat i)%Z (8 * c + Z.of_nat j)%Z)) transform.
  Lemma picture_ok : image_ok picture.
  Proof using Hl Hs Hn Hp Ht.
    apply grid_ok; auto.
    - split; [reflexivity|]. apply Forall_forall. intros v I. apply repeat_spec in I. lia.
    - intros r c k. apply rounded_ok. intros i j _ _. apply Hp.
  Qed.
  Lemma picture_quantised : quantised_picture p lines samples (im_quant picture) (im_mcus picture).
  Proof using Hl Hs Hn Ht.
    intros k q y x Eq Hy Hx. cbn [picture grid im_quant] in Eq. assert (Hk : (k < n)%nat) by (rewrite <- (repeat_length (repeat 1%Z 64) n); apply nth_error_Some; congruence).
    apply nth_error_In, repeat_spec in Eq. subst q. unfold picture. rewrite grid_block by assumption. apply rounded_quantised.
  Qed.
  Lemma picture_energy : Forall (fun q => table_energy q <= (2 * 4) ^ 2) (im_quant picture).
  Proof using.
    apply Forall_forall. intros q I. apply repeat_spec in I. subst q. unfold table_energy. change (rsum8 (fun u => rsum8 (fun v => IZR (at_position zigzag (repeat 1%Z 64) v u) ^ 2))) with (rsum64 (fun v u => IZR (at_position zigzag (repeat 1%Z 64) v u) ^ 2)).
    rewrite (rsum64_ext _ (fun _ _ => 1)) by (intros v u Hv Hu; rewrite at_ones by assumption; ring). rewrite rsum64_const. lra.
  Qed.
End Picture.

Lemma every_cmyk : forall lines samples (p : nat -> Z -> Z -> Z), (0 < lines < 65536)%Z -> (0 < samples < 65536)%Z -> (forall k y x, (0 <= p k y x <= 255)%Z) ->
  exists file, bytes file /\ forall dbg rayon, exists img, decode_fresh dbg rayon file = Ok img /\ lenZ img = (4 * samples * lines)%Z /\
    forall y x, (0 <= y < lines)%Z -> (0 <= x < samples)%Z -> length (pixel 4 samples y x img) = 4%nat /\
      forall k, (k < 4)%nat -> (Z.abs (nth k (pixel 4 samples y x img) 0 - p k y x) <= 5)%Z.
Proof.
  intros lines samples p Hl Hs Hp. set (p' := fun k y x => 255 - IZR (p k y x)).
  assert (Hp' : forall k y x, 0 <= p' k y x <= 255) by (intros k y x; unfold p'; destruct (Hp k y x) as [A B]; apply (IZR_le 0) in A; apply (IZR_le _ 255) in B; lra).
  set (im := picture lines samples 4 p' (Some 0%Z)). pose proof (picture_ok lines samples 4 p' (Some 0%Z) Hl Hs ltac:(lia) Hp' ltac:(cbn; lia)) as OK. fold im in OK.
  exists (encode im). split; [apply enc_bytes; exact OK|]. intros dbg rayon.
  destruct (grid_full lines samples 4 (repeat 1%Z 64) (fun r c k => rounded_block (fun i j => p' k (8 * r + Z.of_nat i)%Z (8 * c + Z.of_nat j)%Z)) (Some 0%Z)) as [F L].
  destruct (quantised_cmyk dbg rayon (enc_segs im) (enc_header im) 0 0 (enc_ss im) _ (im_quant im) (im_mcus im) (enc_data im) [] 0 p' 4 (enc_encodes im OK)
    ltac:(cbn; lia) ltac:(cbn; lia) F no_post ltac:(lra) (picture_energy lines samples 4 p' (Some 0%Z)) Hp' (picture_quantised lines samples 4 p' (Some 0%Z) Hl Hs ltac:(lia) ltac:(cbn; lia)) (enc_bytes im OK) L ltac:(cbn; discriminate) ltac:(reflexivity)) as (img & D & Li & Px).
  exists img. split; [exact D|]. split; [exact Li|]. intros y x Hy Hx. destruct (Px y x Hy Hx) as [Lp E]. change (fh_samples (enc_header im)) with samples in *. split; [exact Lp|].
  intros k Hk. specialize (E k Hk). unfold p', off in E. set (v := nth k (pixel 4 samples y x img) 0%Z) in *.
  assert (A : -6 < IZR v - IZR (p k y x) < 6) by (unfold Rabs in E; destruct (Rcase_abs _); lra). rewrite <- minus_IZR in A. destruct A as [A1 A2]. apply (lt_IZR (-6)) in A1. apply (lt_IZR _ 6) in A2. lia.
Qed.

(** YCbCr values for red, green and blue: the exact inverse of the conversion of SpecExact. *)
Definition luma (r g b : R) : R := (2.484344 * g + 0.48248428 * b + 1.26545608 * r) / 4.23228436.
Definition chroma_b (r g b : R) : R := 128 + (b - luma r g b) / 1.772.
Definition chroma_r (r g b : R) : R := 128 + (r - luma r g b) / 1.402.
Lemma colours : forall r g b Y Cb Cr, 0 <= r <= 255 -> 0 <= g <= 255 -> 0 <= b <= 255 ->
  Y = luma r g b -> Cb = Rmin 255 (chroma_b r g b) -> Cr = Rmin 255 (chroma_r r g b) ->
  (0 <= Y <= 255) /\ (0 <= Cb <= 255) /\ (0 <= Cr <= 255) /\
  Rabs (exact_red Y Cb Cr - r) <= 0.7025 /\ Rabs (exact_green Y Cb Cr - g) <= 0.5303 /\ Rabs (exact_blue Y Cb Cr - b) <= 0.8879.
Proof.
  intros r g b Y Cb Cr Hr Hg Hb EY ECb ECr. assert (L : 0 <= Y <= 255) by (unfold luma in EY; lra).
  assert (B1 : 0 <= chroma_b r g b <= 255.501) by (unfold chroma_b, luma; lra). assert (B2 : 0 <= chroma_r r g b <= 255.501) by (unfold chroma_r, luma; lra).
  assert (C1 : 0 <= Cb <= 255 /\ Cb <= chroma_b r g b <= Cb + 0.501) by (rewrite ECb; unfold Rmin; destruct (Rle_dec _ _); lra).
  assert (C2 : 0 <= Cr <= 255 /\ Cr <= chroma_r r g b <= Cr + 0.501) by (rewrite ECr; unfold Rmin; destruct (Rle_dec _ _); lra).
  destruct C1 as [C1 D1]. destruct C2 as [C2 D2]. split; [exact L|]. split; [exact C1|]. split; [exact C2|]. clear ECb ECr.
  assert (X : forall a t e, 0 <= t <= 255 -> Rabs (a - t) <= e -> Rabs (limited a - t) <= e).
  { intros a t e Ht H. replace t with (limited t) by (unfold limited, Rmax, Rmin; repeat destruct (Rle_dec _ _); lra). apply limit_near. exact H. }
  assert (E1 : r = Y + 1.402 * (chroma_r r g b - 128)) by (rewrite EY; unfold chroma_r; lra).
  assert (E2 : b = Y + 1.772 * (chroma_b r g b - 128)) by (rewrite EY; unfold chroma_b; lra).
  assert (E3 : g = Y - 0.34414 * (chroma_b r g b - 128) - 0.71414 * (chroma_r r g b - 128)) by (rewrite EY; unfold chroma_b, chroma_r, luma; lra).
  unfold exact_red, exact_green, exact_blue. split; [|split]; (apply X; [assumption|]; apply Rabs_le; lra).
Qed.
Lemma every_rgb : forall lines samples (p : nat -> Z -> Z -> Z), (0 < lines < 65536)%Z -> (0 < samples < 65536)%Z -> (forall k y x, (0 <= p k y x <= 255)%Z) ->
  exists file, bytes file /\ forall dbg rayon, exists img, decode_fresh dbg rayon file = Ok img /\ lenZ img = (3 * samples * lines)%Z /\
    forall y x, (0 <= y < lines)%Z -> (0 <= x < samples)%Z -> exists r g b, pixel 3 samples y x img = [r; g; b] /\
      (Z.abs (r - p 0%nat y x) <= 15)%Z /\ (Z.abs (g - p 1%nat y x) <= 13)%Z /\ (Z.abs (b - p 2%nat y x) <= 18)%Z.
Proof.
  intros lines samples p Hl Hs Hp.
  assert (Hp' : forall k y x, 0 <= IZR (p k y x) <= 255) by (intros k y x; destruct (Hp k y x) as [A B]; apply (IZR_le 0) in A; apply (IZR_le _ 255) in B; lra).
  set (p' := fun k y x => let r := IZR (p 0%nat y x) in let g := IZR (p 1%nat y x) in let b := IZR (p 2%nat y x) in
    match k with O => luma r g b | S O => Rmin 255 (chroma_b r g b) | _ => Rmin 255 (chroma_r r g b) end).
  assert (C : forall y x, _) by (intros y x; exact (colours _ _ _ _ _ _ (Hp' 0%nat y x) (Hp' 1%nat y x) (Hp' 2%nat y x) eq_refl eq_refl eq_refl)).
  assert (Hp2 : forall k y x, 0 <= p' k y x <= 255) by (intros k y x; destruct (C y x) as (C1 & C2 & C3 & _); unfold p'; cbv zeta; destruct k as [|[|k]]; assumption).
  set (im := picture lines samples 3 p' None). pose proof (picture_ok lines samples 3 p' None Hl Hs ltac:(lia) Hp2 I) as OK. fold im in OK.
  exists (encode im). split; [apply enc_bytes; exact OK|]. intros dbg rayon.
  destruct (grid_full lines samples 3 (repeat 1%Z 64) (fun r c k => rounded_block (fun i j => p' k (8 * r + Z.of_nat i)%Z (8 * c + Z.of_nat j)%Z)) None) as [F L].
  destruct (quantised_ycbcr dbg rayon (enc_segs im) (enc_header im) 0 0 (enc_ss im) _ (im_quant im) (im_mcus im) (enc_data im) [] 0 p' 4 (enc_encodes im OK)
    ltac:(cbn; lia) ltac:(cbn; lia) F no_post ltac:(lra) (picture_energy lines samples 3 p' None) Hp2 (picture_quantised lines samples 3 p' None Hl Hs ltac:(lia) I) (enc_bytes im OK) L ltac:(cbn; lia)) as (img & D & Li & Px).
  exists img. split; [exact D|]. split; [exact Li|]. intros y x Hy Hx. destruct (Px y x Hy Hx) as (r & g & b & E & R & G & B). change (fh_samples (enc_header im)) with samples in *.
  destruct (C y x) as (_ & _ & _ & C1 & C2 & C3). cbn [p'] in R, G, B. cbv zeta in R, G, B. exists r, g, b. split; [exact E|].
  assert (T : forall (v t : Z) e1 e2 x' n, Rabs (IZR v - x') <= e1 -> Rabs (x' - IZR t) <= e2 -> e1 + e2 < IZR (n + 1) -> (Z.abs (v - t) <= n)%Z).
  { intros v t e1 e2 x' n A1 A2 A3. assert (A : - IZR (n + 1) < IZR v - IZR t < IZR (n + 1)) by (unfold Rabs in A1, A2; destruct (Rcase_abs (IZR v - x')), (Rcase_abs (x' - IZR t)); lra).
    rewrite <- minus_IZR, <- opp_IZR in A. destruct A as [B1 B2]. apply lt_IZR in B1. apply lt_IZR in B2. lia. }
  unfold off in *. split; [|split].
  - apply (T _ _ _ _ _ 15%Z R C1). change (IZR (15 + 1)) with 16. lra.
  - apply (T _ _ _ _ _ 13%Z G C2). change (IZR (13 + 1)) with 14. lra.
  - apply (T _ _ _ _ _ 18%Z B C3). change (IZR (18 + 1)) with 19. lra.
Qed.
