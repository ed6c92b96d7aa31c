(** Facts about the f32 arithmetic of the model, by exact integer reasoning (no reals). *)
From Coq Require Import Floats.SpecFloat.
From Verif Require Import Base F32 Tactics.

(** ** The rounding step *)
(** Mantissa and the two guard bits of SpecFloat as one number. *)
Definition loc2 (l : location) : Z :=
  match l with loc_Exact => 0 | loc_Inexact Lt => 1 | loc_Inexact Eq => 2 | loc_Inexact Gt => 3 end.
Definition rec4 (r : shr_record) : Z := 4 * shr_m r + 2 * Z.b2z (shr_r r) + Z.b2z (shr_s r).

Lemma rec4_of_loc : forall m l, rec4 (shr_record_of_loc m l) = 4 * m + loc2 l.
Proof. intros m [|[]]; unfold rec4; cbn; lia. Qed.

(** Shift right by [n] keeping a sticky bit. *)
Definition stick (N n : Z) : Z := 2 * (N / 2 ^ (n + 1)) + Z.b2z (negb (N mod 2 ^ (n + 1) =? 0)).

Lemma shr_1_stick : forall r, 0 <= shr_m r -> rec4 (shr_1 r) = stick (rec4 r) 1 /\ 0 <= shr_m (shr_1 r).
Proof.
  intros [m r s] H. cbn [shr_m] in H. unfold stick. change (2 ^ (1 + 1)) with 4.
  destruct m as [|[p|p|]|p]; [| | | |lia]; destruct r, s; unfold rec4;
    cbn [shr_1 shr_m shr_r shr_s orb Z.b2z]; lia.
Qed.

Lemma stick_0 : forall N, stick N 0 = N.
Proof. intros. unfold stick. change (2 ^ (0 + 1)) with 2. lia. Qed.

Lemma div_mod_step : forall N P Q, 0 < P -> 0 < Q ->
  N / (P * Q) = (N / P) / Q /\ N mod (P * Q) = P * ((N / P) mod Q) + N mod P.
Proof.
  intros. split; [rewrite Z.div_div by lia; reflexivity|]. rewrite Z.rem_mul_r by lia. lia.
Qed.

Lemma stick_stick : forall N a b, 0 <= a -> 0 <= b -> stick (stick N a) b = stick N (a + b).
Proof.
  intros N a b Ha Hb. unfold stick.
  replace (2 ^ (a + b + 1)) with (2 ^ (a + 1) * 2 ^ b) by (rewrite <- Z.pow_add_r by lia; f_equal; lia).
  replace (2 ^ (b + 1)) with (2 * 2 ^ b) by (rewrite Z.pow_add_r by lia; lia).
  assert (PA : 0 < 2 ^ (a + 1)) by (apply Z.pow_pos_nonneg; lia).
  assert (PB : 0 < 2 ^ b) by (apply Z.pow_pos_nonneg; lia).
  set (P := 2 ^ (a + 1)) in *. set (Q := 2 ^ b) in *.
  destruct (div_mod_step N P Q PA PB) as [-> ->].
  set (x := N / P). set (r := N mod P).
  assert (R : 0 <= r < P) by (apply Z.mod_pos_bound; lia).
  set (t := Z.b2z (negb (r =? 0))).
  assert (T : 0 <= t < 2) by (unfold t; destruct (r =? 0); cbn; lia).
  destruct (div_mod_step (2 * x + t) 2 Q ltac:(lia) PB) as [-> ->].
  replace ((2 * x + t) / 2) with x by lia. replace ((2 * x + t) mod 2) with t by lia.
  f_equal. f_equal. f_equal.
  pose proof (Z.mod_pos_bound x Q PB) as M. set (y := x mod Q) in *.
  unfold t. destruct (Z.eqb_spec r 0) as [->|]; cbn [negb Z.b2z].
  - destruct (Z.eqb_spec (P * y + 0) 0) as [E|E]; destruct (Z.eqb_spec (2 * y + 0) 0); nia.
  - destruct (Z.eqb_spec (P * y + r) 0) as [E|E]; destruct (Z.eqb_spec (2 * y + 1) 0); nia.
Qed.

Lemma iter_shr : forall p r, 0 <= shr_m r ->
  rec4 (SpecFloat.iter_pos shr_1 p r) = stick (rec4 r) (Zpos p) /\ 0 <= shr_m (SpecFloat.iter_pos shr_1 p r).
Proof.
  induction p as [p IH|p IH|]; intros r H; cbn [SpecFloat.iter_pos].
  - destruct (shr_1_stick r H) as [E1 H1]. destruct (IH _ H1) as [E2 H2]. destruct (IH _ H2) as [E3 H3].
    split; auto. rewrite E3, E2, E1, !stick_stick by lia. f_equal. lia.
  - destruct (IH _ H) as [E2 H2]. destruct (IH _ H2) as [E3 H3].
    split; auto. rewrite E3, E2, !stick_stick by lia. f_equal. lia.
  - apply shr_1_stick. auto.
Qed.

(** [N / 2^k] rounded to nearest, ties to even. *)
Definition rne (N k : Z) : Z :=
  let q := N / 2 ^ k in let r := N mod 2 ^ k in
  if (2 ^ (k - 1) <? r) || ((r =? 2 ^ (k - 1)) && Z.odd q) then q + 1 else q.

Lemma round_rec : forall r, round_nearest_even (shr_m r) (loc_of_shr_record r) = rne (rec4 r) 2.
Proof.
  intros [m r s]. unfold rne, rec4. change (2 ^ 2) with 4. change (2 ^ (2 - 1)) with 2. cbn [shr_m shr_r shr_s].
  replace ((4 * m + 2 * Z.b2z r + Z.b2z s) / 4) with m by (destruct r, s; cbn [Z.b2z]; lia).
  replace ((4 * m + 2 * Z.b2z r + Z.b2z s) mod 4) with (2 * Z.b2z r + Z.b2z s) by (destruct r, s; cbn [Z.b2z]; lia).
  destruct r, s; cbn; auto. rewrite <- Z.negb_even. destruct (Z.even m); reflexivity.
Qed.

Lemma rne_stick : forall N n, 0 <= n -> rne (stick N n) 2 = rne N (n + 2).
Proof.
  intros N n Hn. unfold rne, stick. change (2 ^ 2) with 4. change (2 ^ (2 - 1)) with 2.
  replace (n + 2 - 1) with (n + 1) by lia.
  replace (2 ^ (n + 2)) with (2 ^ (n + 1) * 2) by (replace (n + 2) with (n + 1 + 1) by lia; rewrite (Z.pow_add_r 2 (n + 1) 1) by lia; lia).
  assert (PP : 0 < 2 ^ (n + 1)) by (apply Z.pow_pos_nonneg; lia).
  set (P := 2 ^ (n + 1)) in *. destruct (div_mod_step N P 2 PP ltac:(lia)) as [-> ->].
  set (x := N / P). set (r := N mod P).
  assert (R : 0 <= r < P) by (apply Z.mod_pos_bound; lia).
  set (t := Z.b2z (negb (r =? 0))).
  assert (T : t = 0 /\ r = 0 \/ t = 1 /\ r <> 0) by (unfold t; destruct (Z.eqb_spec r 0); cbn; lia).
  replace ((2 * x + t) / 4) with (x / 2) by lia. replace ((2 * x + t) mod 4) with (2 * (x mod 2) + t) by lia.
  assert (Y : x mod 2 = 0 \/ x mod 2 = 1) by lia. set (y := x mod 2) in *.
  replace (2 <? 2 * y + t) with (P <? P * y + r) by (destruct Y as [-> | ->]; lia).
  replace (2 * y + t =? 2) with (P * y + r =? P) by (destruct Y as [-> | ->]; lia).
  reflexivity.
Qed.

Lemma rne_bounds : forall N k, 1 <= k -> N / 2 ^ k <= rne N k <= N / 2 ^ k + 1.
Proof. intros. unfold rne. destruct (_ || _); lia. Qed.

(** Nearest: at most half a unit away. *)
Lemma rne_near : forall N k, 1 <= k -> 2 * (2 ^ k * rne N k - N) <= 2 ^ k /\ - 2 ^ k <= 2 * (2 ^ k * rne N k - N).
Proof.
  intros N k Hk. unfold rne. set (q := N / 2 ^ k). set (r := N mod 2 ^ k).
  assert (P : 0 < 2 ^ k) by (apply Z.pow_pos_nonneg; lia).
  assert (D : N = 2 ^ k * q + r) by (apply Z.div_mod; lia).
  assert (R : 0 <= r < 2 ^ k) by (apply Z.mod_pos_bound; lia).
  assert (H2 : 2 ^ k = 2 * 2 ^ (k - 1)) by (rewrite <- Z.pow_succ_r by lia; f_equal; lia).
  destruct ((2 ^ (k - 1) <? r) || ((r =? 2 ^ (k - 1)) && Z.odd q)) eqn:E; lia.
Qed.

Lemma rne_exact : forall a k, 1 <= k -> rne (a * 2 ^ k) k = a.
Proof.
  intros. unfold rne. assert (P : 0 < 2 ^ (k - 1)) by (apply Z.pow_pos_nonneg; lia).
  assert (P' : 0 < 2 ^ k) by (apply Z.pow_pos_nonneg; lia).
  rewrite Z.div_mul, Z.mod_mul by lia.
  replace (2 ^ (k - 1) <? 0) with false by lia. replace (0 =? 2 ^ (k - 1)) with false by lia. reflexivity.
Qed.

(** ** Digits *)
Lemma digits2_pos_bound : forall p, 2 ^ (Zpos (digits2_pos p) - 1) <= Zpos p < 2 ^ Zpos (digits2_pos p).
Proof.
  assert (S : forall p, 2 ^ Zpos (Pos.succ p) = 2 * 2 ^ Zpos p) by (intros; rewrite Pos2Z.inj_succ, Z.pow_succ_r by lia; lia).
  induction p as [p IH|p IH|]; cbn [digits2_pos].
  - rewrite S. replace (Zpos (Pos.succ (digits2_pos p)) - 1) with (Z.succ (Zpos (digits2_pos p) - 1)) by lia.
    rewrite Z.pow_succ_r by lia. lia.
  - rewrite S. replace (Zpos (Pos.succ (digits2_pos p)) - 1) with (Z.succ (Zpos (digits2_pos p) - 1)) by lia.
    rewrite Z.pow_succ_r by lia. lia.
  - cbn. lia.
Qed.

Lemma digits_unique : forall m a b, 0 < a -> 0 < b ->
  2 ^ (a - 1) <= m < 2 ^ a -> 2 ^ (b - 1) <= m < 2 ^ b -> a = b.
Proof.
  intros m a b Ha Hb A B.
  assert (a - 1 < b) by (apply (Z.pow_lt_mono_r_iff 2); lia).
  assert (b - 1 < a) by (apply (Z.pow_lt_mono_r_iff 2); lia). lia.
Qed.

Lemma Zdigits2_eq : forall m d, 0 < d -> 2 ^ (d - 1) <= m < 2 ^ d -> Zdigits2 m = d.
Proof.
  intros m d Hd H. assert (0 < 2 ^ (d - 1)) by (apply Z.pow_pos_nonneg; lia).
  destruct m as [|p|p]; try lia. cbn [Zdigits2].
  apply (digits_unique (Zpos p)); auto; [lia|]. apply digits2_pos_bound.
Qed.

(** ** binary_round_aux *)
Lemma round_aux : forall s m e l d,
  24 <= d -> 2 ^ (d - 1) <= m < 2 ^ d -> -125 <= d + e <= 127 ->
  exists mm ee, binary_round_aux 24 128 s m e l = S754_finite s mm ee /\
    2 ^ 23 <= Zpos mm < 2 ^ 24 /\ -149 <= ee <= 104 /\
    ((ee = e + (d - 24) /\ Zpos mm = rne (4 * m + loc2 l) (d - 22)) \/
     (ee = e + (d - 24) + 1 /\ 2 * Zpos mm = rne (4 * m + loc2 l) (d - 22) /\ Zpos mm = 2 ^ 23)).
Proof.
  intros s m e l d Hd Hm He.
  assert (P0 : 0 < 2 ^ (d - 1)) by (apply Z.pow_pos_nonneg; lia).
  unfold binary_round_aux, shr_fexp. rewrite (Zdigits2_eq m d) by (auto; lia).
  unfold fexp at 1, emin at 1.
  replace (Z.max (d + e - 24) (3 - 128 - 24) - e) with (d - 24) by lia.
  set (R := shr_record_of_loc m l).
  assert (HR : rec4 R = 4 * m + loc2 l) by apply rec4_of_loc.
  assert (HM : 0 <= shr_m R) by (unfold R; destruct l as [|[]]; cbn [shr_record_of_loc shr_m]; lia).
  assert (HS : exists R', shr R e (d - 24) = (R', e + (d - 24)) /\ round_nearest_even (shr_m R') (loc_of_shr_record R') = rne (4 * m + loc2 l) (d - 22)).
  { destruct (d - 24) as [|p|p] eqn:E; [| |lia].
    - exists R. cbn [shr]. rewrite Z.add_0_r. split; auto. rewrite round_rec, HR. replace (d - 22) with 2 by lia. reflexivity.
    - exists (SpecFloat.iter_pos shr_1 p R). cbn [shr]. split; auto. rewrite round_rec. destruct (iter_shr p R HM) as [-> _].
      rewrite HR, rne_stick by lia. f_equal. lia. }
  destruct HS as [R' [-> ->]]. set (M := rne (4 * m + loc2 l) (d - 22)).
  assert (BM : 2 ^ 23 <= M <= 2 ^ 24).
  { pose proof (rne_bounds (4 * m + loc2 l) (d - 22) ltac:(lia)) as B. fold M in B.
    assert (E1 : 2 ^ (d - 1) = 2 ^ 21 * 2 ^ (d - 22)) by (rewrite <- Z.pow_add_r by lia; f_equal; lia).
    assert (E2 : 2 ^ d = 2 * 2 ^ (d - 1)) by (rewrite <- Z.pow_succ_r by lia; f_equal; lia).
    assert (0 < 2 ^ (d - 22)) by (apply Z.pow_pos_nonneg; lia).
    assert (L : 0 <= loc2 l <= 3) by (destruct l as [|[]]; cbn; lia).
    set (N := 4 * m + loc2 l) in *.
    assert (2 ^ 23 <= N / 2 ^ (d - 22)) by (apply Z.div_le_lower_bound; lia).
    assert (N / 2 ^ (d - 22) < 2 ^ 24) by (apply Z.div_lt_upper_bound; lia). lia. }
  destruct (Z.eq_dec M (2 ^ 24)) as [EM|NM].
  - rewrite EM. rewrite (Zdigits2_eq (2 ^ 24) 25) by (cbn; lia).
    unfold fexp, emin.
    replace (Z.max (25 + (e + (d - 24)) - 24) (3 - 128 - 24) - (e + (d - 24))) with 1 by lia.
    change (2 ^ 24) with (Zpos 16777216).
    cbn [shr shr_record_of_loc SpecFloat.iter_pos shr_1 shr_m orb]. replace (Zle_bool (e + (d - 24) + 1) (128 - 24)) with true.
    + exists 8388608%positive, (e + (d - 24) + 1). splits; auto; try lia.
    + symmetry. apply Z.leb_le. lia.
  - rewrite (Zdigits2_eq M 24) by (cbn; lia). unfold fexp, emin.
    replace (Z.max (24 + (e + (d - 24)) - 24) (3 - 128 - 24) - (e + (d - 24))) with 0 by lia.
    cbn [shr shr_record_of_loc shr_m]. destruct M as [|p|p] eqn:EQ; try lia.
    replace (Zle_bool (e + (d - 24)) (128 - 24)) with true.
    + exists p, (e + (d - 24)). splits; auto; lia.
    + symmetry. apply Z.leb_le. lia.
Qed.

(** ** Values *)
(** The value of a finite float, scaled by 2^200. *)
Definition sval (x : f32) : Z :=
  match x with
  | S754_finite s m e => cond_Zopp s (Zpos m) * 2 ^ (e + 200)
  | _ => 0
  end.
(** Zero or a normalised finite number. *)
Definition canon (x : f32) : Prop :=
  match x with
  | S754_zero _ => True
  | S754_finite _ m e => 2 ^ 23 <= Zpos m < 2 ^ 24 /\ -50 <= e <= 50
  | _ => False
  end.

(** Rounding an exactly representable number. *)
Lemma round_aux_exact : forall s m e d a k,
  24 <= d -> 2 ^ (d - 1) <= m < 2 ^ d -> -26 <= d + e <= 73 ->
  m = a * 2 ^ k -> 0 <= k -> a < 2 ^ 24 -> -200 <= e ->
  let r := binary_round_aux 24 128 s m e loc_Exact in
  canon r /\ sval r = cond_Zopp s m * 2 ^ (e + 200).
Proof.
  intros s m e d a k Hd Hm He Ha Hk Hlt He2.
  destruct (round_aux s m e loc_Exact d Hd Hm ltac:(lia)) as [mm [ee [-> [Hmm [Hee V]]]]].
  cbn [canon sval]. split; [lia|].
  assert (Pk : 0 < 2 ^ k) by (apply Z.pow_pos_nonneg; lia).
  assert (P1 : 0 < 2 ^ (d - 1)) by (apply Z.pow_pos_nonneg; lia).
  assert (a0 : 0 < a) by nia.
  assert (D : d - 24 <= k).
  { destruct (Z_le_gt_dec (d - 24) k); auto. exfalso.
    assert (2 ^ (24 + k) <= 2 ^ (d - 1)) by (apply Z.pow_le_mono_r; lia). rewrite Z.pow_add_r in H by lia. nia. }
  assert (EX : m = a * 2 ^ (k - (d - 24)) * 2 ^ (d - 24)) by (rewrite <- Z.mul_assoc, <- Z.pow_add_r by lia; rewrite Ha; do 2 f_equal; lia).
  set (a' := a * 2 ^ (k - (d - 24))) in *.
  assert (RE : rne (4 * m + loc2 loc_Exact) (d - 22) = a').
  { cbn [loc2]. replace (4 * m + 0) with (a' * 2 ^ (d - 22)).
    - apply rne_exact. lia.
    - rewrite EX. replace (d - 22) with (d - 24 + 2) by lia. rewrite Z.pow_add_r by lia. change (2 ^ 2) with 4. ring. }
  assert (SV : Zpos mm * 2 ^ (ee + 200) = m * 2 ^ (e + 200)).
  { rewrite RE in V. destruct V as [[-> ->]|[-> [V _]]].
    - replace (e + (d - 24) + 200) with (e + 200 + (d - 24)) by lia. rewrite (Z.pow_add_r 2 (e + 200)) by lia.
      rewrite EX. ring.
    - replace (e + (d - 24) + 1 + 200) with (e + 200 + (d - 24) + 1) by lia. rewrite (Z.pow_add_r 2 _ 1), (Z.pow_add_r 2 (e + 200)) by lia.
      rewrite EX, <- V. change (2 ^ 1) with 2. ring. }
  destruct s; cbn [cond_Zopp]; lia.
Qed.

(** Nearest rounding in general. *)
Lemma round_aux_near : forall s m e l d,
  24 <= d -> 2 ^ (d - 1) <= m < 2 ^ d -> -26 <= d + e <= 73 -> -200 <= e ->
  let r := binary_round_aux 24 128 s m e l in
  canon r /\ exists M u, u = e + (d - 24) /\ M = rne (4 * m + loc2 l) (d - 22) /\
    2 ^ 23 <= M <= 2 ^ 24 /\ sval r = cond_Zopp s M * 2 ^ (u + 200).
Proof.
  intros s m e l d Hd Hm He He2.
  destruct (round_aux s m e l d Hd Hm ltac:(lia)) as [mm [ee [-> [Hmm [Hee V]]]]].
  cbn [canon sval]. split; [lia|]. eexists _, _. split; [reflexivity|]. split; [reflexivity|].
  destruct V as [[-> <-]|[-> [<- ?]]]; [split; [lia|reflexivity]|]. split; [lia|].
  replace (e + (d - 24) + 1 + 200) with (e + (d - 24) + 200 + 1) by lia. rewrite (Z.pow_add_r 2 _ 1) by lia.
  change (2 ^ 1) with 2. destruct s; cbn [cond_Zopp]; ring.
Qed.

Lemma digits_ex : forall m, 0 < m -> exists d, 0 < d /\ 2 ^ (d - 1) <= m < 2 ^ d.
Proof.
  intros m Hm. exists (Z.log2 m + 1). pose proof (Z.log2_spec m Hm). pose proof (Z.log2_nonneg m).
  replace (Z.log2 m + 1 - 1) with (Z.log2 m) by lia. rewrite Z.add_1_r. lia.
Qed.

Lemma shift_pos_mul : forall d m, Zpos (shift_pos d m) = Zpos m * 2 ^ Zpos d.
Proof.
  intros. rewrite shift_pos_correct. change (Zpower_pos 2 d) with (2 ^ Zpos d). ring.
Qed.

Lemma normalize_exact : forall z e a k d,
  0 < d -> 2 ^ (d - 1) <= Z.abs z < 2 ^ d -> -26 <= d + e <= 73 -> -200 <= e ->
  Z.abs z = a * 2 ^ k -> 0 <= k -> a < 2 ^ 24 ->
  let r := binary_normalize 24 128 z e false in canon r /\ sval r = z * 2 ^ (e + 200).
Proof.
  intros z e a k d Hd Hz He He2 Ha Hk Hlt.
  assert (P0 : 0 < 2 ^ (d - 1)) by (apply Z.pow_pos_nonneg; lia).
  assert (G : forall s p, Zpos p = Z.abs z -> let r := binary_round 24 128 s p e in
    canon r /\ sval r = cond_Zopp s (Zpos p) * 2 ^ (e + 200)).
  { intros s p Ep. unfold binary_round. cbn zeta.
    assert (Zpos (digits2_pos p) = d).
    { apply (digits_unique (Zpos p)); try lia. apply digits2_pos_bound. }
    rewrite H. unfold fexp, emin. replace (Z.max (d + e - 24) (3 - 128 - 24)) with (d + e - 24) by lia.
    unfold shl_align. replace (d + e - 24 - e) with (d - 24) by lia.
    destruct (Z_lt_le_dec d 24) as [Hlt24|Hge].
    - destruct (d - 24) as [|q|q] eqn:Q; try lia.
      assert (PZ : Zpos (shift_pos q p) = Zpos p * 2 ^ (24 - d)) by (rewrite shift_pos_mul; do 2 f_equal; lia).
      assert (PP : 0 < 2 ^ (24 - d)) by (apply Z.pow_pos_nonneg; lia).
      destruct (round_aux_exact s (Zpos (shift_pos q p)) (d + e - 24) 24 a (k + (24 - d))) as [C V]; auto; try lia.
      + rewrite PZ, Ep. change (24 - 1) with 23.
        assert (2 ^ 23 = 2 ^ (d - 1) * 2 ^ (24 - d)) by (rewrite <- Z.pow_add_r by lia; f_equal; lia).
        assert (2 ^ 24 = 2 ^ d * 2 ^ (24 - d)) by (rewrite <- Z.pow_add_r by lia; f_equal; lia). nia.
      + rewrite PZ, Ep, Ha, Z.pow_add_r by lia. ring.
      + split; auto. cbn zeta in V. rewrite V, PZ.
        replace (e + 200) with (24 - d + (d + e - 24 + 200)) by lia. rewrite (Z.pow_add_r 2 (24 - d)) by lia.
        destruct s; cbn [cond_Zopp]; ring.
    - replace (match d - 24 with Zneg d0 => (shift_pos d0 p, d + e - 24) | _ => (p, e) end) with (p, e) by (destruct (d - 24) eqn:?; auto; lia).
      apply (round_aux_exact s (Zpos p) e d a k); lia. }
  destruct z as [|p|p]; [cbn in *; lia| |].
  - exact (G false p eq_refl).
  - exact (G true p eq_refl).
Qed.

Lemma pow_split : forall a b, 0 <= a <= b -> 2 ^ b = 2 ^ a * 2 ^ (b - a).
Proof. intros. rewrite <- Z.pow_add_r by lia. f_equal. lia. Qed.

Lemma of_Z_exact : forall n, 0 <= n < 2 ^ 24 -> canon (f32_of_Z n) /\ sval (f32_of_Z n) = n * 2 ^ 200.
Proof.
  intros n Hn. destruct (Z.eq_dec n 0) as [->|Hz]; [cbn; lia|]. unfold f32_of_Z.
  destruct (digits_ex n) as [d [Hd Hb]]; [lia|].
  assert (d <= 24). { destruct (Z_le_gt_dec d 24); auto. assert (2 ^ 24 <= 2 ^ (d - 1)) by (apply Z.pow_le_mono_r; lia). lia. }
  apply (normalize_exact n 0 n 0 d); try lia.
Qed.

(** A multiple of a large power of two, measured in a smaller unit. *)
Lemma unit_change : forall z v a k, 0 <= v -> 0 <= k -> z * 2 ^ v = a * 2 ^ k -> 0 <= a < 2 ^ 24 ->
  exists a' k', 0 <= k' /\ z = a' * 2 ^ k' /\ a' < 2 ^ 24.
Proof.
  intros z v a k Hv Hk E Ha. assert (PV : 0 < 2 ^ v) by (apply Z.pow_pos_nonneg; lia).
  destruct (Z_le_gt_dec v k).
  - exists a, (k - v). splits; try lia. rewrite (pow_split v k) in E by lia. nia.
  - exists z, 0. splits; try lia. rewrite (pow_split k v) in E by lia.
    assert (0 < 2 ^ k) by (apply Z.pow_pos_nonneg; lia).
    assert (0 < 2 ^ (v - k)) by (apply Z.pow_pos_nonneg; lia).
    assert (z * 2 ^ (v - k) = a) by nia. nia.
Qed.

(** Position of the top bit from the scaled value. *)
Lemma digits_scaled : forall z v d lo hi, 0 < d -> 0 <= v -> 2 ^ (d - 1) <= z < 2 ^ d ->
  0 <= lo -> 2 ^ lo <= z * 2 ^ v < 2 ^ hi -> lo < d + v <= hi.
Proof.
  intros z v d lo hi Hd Hv Hz Hlo H.
  assert (PV : 0 < 2 ^ v) by (apply Z.pow_pos_nonneg; lia).
  assert (E1 : 2 ^ (d + v) = 2 ^ d * 2 ^ v) by (apply Z.pow_add_r; lia).
  assert (E2 : 2 ^ (d + v - 1) = 2 ^ (d - 1) * 2 ^ v) by (rewrite <- Z.pow_add_r by lia; f_equal; lia).
  split.
  - apply (Z.pow_lt_mono_r_iff 2); try lia. nia.
  - assert (2 ^ (d + v - 1) < 2 ^ hi) by nia.
    destruct (Z_lt_le_dec hi 0); [rewrite (Z.pow_neg_r 2 hi) in H by lia; nia|].
    apply Z.pow_lt_mono_r_iff in H0; lia.
Qed.

Lemma shl_align_fst : forall m e e', e' <= e -> Zpos (fst (shl_align m e e')) = Zpos m * 2 ^ (e - e').
Proof.
  intros. unfold shl_align. destruct (e' - e) as [|p|p] eqn:E; cbn [fst].
  - replace (e - e') with 0 by lia. lia.
  - lia.
  - rewrite shift_pos_mul. do 2 f_equal. lia.
Qed.

Lemma sum_normal : forall sx mx ex sy my ey (sg : Z) a k,
  -50 <= ex <= 50 -> -50 <= ey <= 50 -> sg = 1 \/ sg = -1 ->
  cond_Zopp sx (Zpos mx) * 2 ^ (ex + 200) + sg * (cond_Zopp sy (Zpos my) * 2 ^ (ey + 200)) = a * 2 ^ k ->
  176 <= k <= 220 -> Z.abs a < 2 ^ 24 ->
  let ez := Z.min ex ey in
  let r := binary_normalize 24 128 (cond_Zopp sx (Zpos (fst (shl_align mx ex ez))) + sg * cond_Zopp sy (Zpos (fst (shl_align my ey ez)))) ez false in
  canon r /\ sval r = a * 2 ^ k.
Proof.
  intros sx mx ex sy my ey sg a k Hx Hy Hs E Hk Ha ez r.
  set (z := cond_Zopp sx (Zpos (fst (shl_align mx ex ez))) + sg * cond_Zopp sy (Zpos (fst (shl_align my ey ez)))) in *.
  assert (EZ : z * 2 ^ (ez + 200) = a * 2 ^ k).
  { rewrite <- E. unfold z.
    assert (X : cond_Zopp sx (Zpos (fst (shl_align mx ex ez))) = cond_Zopp sx (Zpos mx) * 2 ^ (ex - ez)).
    { rewrite shl_align_fst by lia. destruct sx; cbn [cond_Zopp]; ring. }
    assert (Y : cond_Zopp sy (Zpos (fst (shl_align my ey ez))) = cond_Zopp sy (Zpos my) * 2 ^ (ey - ez)).
    { rewrite shl_align_fst by lia. destruct sy; cbn [cond_Zopp]; ring. }
    rewrite X, Y. replace (ex + 200) with (ex - ez + (ez + 200)) by lia. replace (ey + 200) with (ey - ez + (ez + 200)) by lia.
    rewrite !(Z.pow_add_r 2 _ (ez + 200)) by lia. ring. }
  assert (P1 : 0 < 2 ^ (ez + 200)) by (apply Z.pow_pos_nonneg; lia).
  assert (P2 : 0 < 2 ^ k) by (apply Z.pow_pos_nonneg; lia).
  destruct (Z.eq_dec z 0) as [Z0|NZ].
  - unfold r. rewrite Z0 in *. cbn. lia.
  - destruct (digits_ex (Z.abs z)) as [d [Hd Hb]]; [lia|].
    assert (EA : Z.abs z * 2 ^ (ez + 200) = Z.abs a * 2 ^ k) by nia.
    destruct (unit_change (Z.abs z) (ez + 200) (Z.abs a) k) as [a' [k' [Hk' [E' La]]]]; try lia.
    assert (DS : 176 < d + (ez + 200) <= 244).
    { apply (digits_scaled (Z.abs z)); try lia. rewrite EA.
      assert (2 ^ 176 <= 2 ^ k) by (apply Z.pow_le_mono_r; lia).
      assert (2 ^ k <= 2 ^ 220) by (apply Z.pow_le_mono_r; lia).
      assert (2 ^ 244 = 2 ^ 24 * 2 ^ 220) by (rewrite <- Z.pow_add_r by lia; reflexivity). nia. }
    destruct (normalize_exact z ez a' k' d) as [C V]; try lia. split; [exact C|]. etransitivity; [exact V|exact EZ].
Qed.

Lemma add_exact : forall x y a k, canon x -> canon y -> sval x + sval y = a * 2 ^ k ->
  176 <= k <= 220 -> Z.abs a < 2 ^ 24 -> canon (f32_add x y) /\ sval (f32_add x y) = a * 2 ^ k.
Proof.
  intros x y a k Cx Cy E Hk Ha. unfold f32_add.
  destruct x as [sx|sx| |sx mx ex]; try contradiction; destruct y as [sy|sy| |sy my ey]; try contradiction.
  - cbn [SFadd]. destruct (Bool.eqb sx sy); cbn in *; lia.
  - cbn [SFadd]. cbn [sval] in E. rewrite Z.add_0_l in E. auto.
  - cbn [SFadd]. cbn [sval] in E. rewrite Z.add_0_r in E. auto.
  - cbn [SFadd]. cbn [sval canon] in *.
    pose proof (sum_normal sx mx ex sy my ey 1 a k) as S. cbn zeta in S. rewrite !Z.mul_1_l in S. apply S; lia.
Qed.

Lemma sub_exact : forall x y a k, canon x -> canon y -> sval x - sval y = a * 2 ^ k ->
  176 <= k <= 220 -> Z.abs a < 2 ^ 24 -> canon (f32_sub x y) /\ sval (f32_sub x y) = a * 2 ^ k.
Proof.
  intros x y a k Cx Cy E Hk Ha. unfold f32_sub.
  destruct x as [sx|sx| |sx mx ex]; try contradiction; destruct y as [sy|sy| |sy my ey]; try contradiction.
  - cbn [SFsub]. destruct (Bool.eqb sx (negb sy)); cbn in *; lia.
  - cbn [SFsub]. cbn [sval canon] in *. split; [tauto|]. rewrite <- E. destruct sy; cbn [negb cond_Zopp]; ring.
  - cbn [SFsub]. cbn [sval] in E. rewrite Z.sub_0_r in E. auto.
  - cbn [SFsub]. cbn [sval canon] in *.
    pose proof (sum_normal sx mx ex sy my ey (-1) a k) as S. cbn zeta in S. rewrite <- Z.add_opp_r.
    replace (- cond_Zopp sy (Zpos (fst (shl_align my ey (Z.min ex ey))))) with (-1 * cond_Zopp sy (Zpos (fst (shl_align my ey (Z.min ex ey))))) by ring.
    apply S; lia.
Qed.

(** ** Products and quotients of positive numbers *)
Lemma mul_core : forall mx ex my ey,
  2 ^ 23 <= Zpos mx < 2 ^ 24 -> 2 ^ 23 <= Zpos my < 2 ^ 24 ->
  exists d, 47 <= d <= 48 /\ 2 ^ (d - 1) <= Zpos (mx * my) < 2 ^ d /\
   (-100 <= ex + ey -> Zpos (mx * my) * 2 ^ (ex + ey + 400) = (Zpos mx * 2 ^ (ex + 200)) * (Zpos my * 2 ^ (ey + 200)) \/ ex < -200 \/ ey < -200).
Proof.
  intros mx ex my ey Hx Hy. rewrite Pos2Z.inj_mul.
  assert (B : 2 ^ 46 <= Zpos mx * Zpos my < 2 ^ 48) by nia.
  destruct (Z_lt_le_dec (Zpos mx * Zpos my) (2 ^ 47)).
  - exists 47. splits; try lia. intros. destruct (Z_lt_le_dec ex (-200)); auto. destruct (Z_lt_le_dec ey (-200)); auto. left.
    replace (ex + ey + 400) with (ex + 200 + (ey + 200)) by lia. rewrite Z.pow_add_r by lia. ring.
  - exists 48. splits; try lia. intros. destruct (Z_lt_le_dec ex (-200)); auto. destruct (Z_lt_le_dec ey (-200)); auto. left.
    replace (ex + ey + 400) with (ex + 200 + (ey + 200)) by lia. rewrite Z.pow_add_r by lia. ring.
Qed.

Lemma sgn_pos : forall s m e, -200 <= e -> 0 < cond_Zopp s (Zpos m) * 2 ^ (e + 200) -> s = false.
Proof.
  intros [|] m e He H; auto. cbn [cond_Zopp] in H.
  assert (0 < 2 ^ (e + 200)) by (apply Z.pow_pos_nonneg; lia). nia.
Qed.

Lemma pos_finite : forall x, canon x -> 0 < sval x ->
  exists m e, x = S754_finite false m e /\ 2 ^ 23 <= Zpos m < 2 ^ 24 /\ -50 <= e <= 50 /\ sval x = Zpos m * 2 ^ (e + 200).
Proof.
  intros x C H. destruct x as [s|s| |s m e]; cbn [canon sval] in *; try contradiction; try lia.
  rewrite (sgn_pos s m e) in * by (auto; lia). exists m, e. cbn [cond_Zopp] in *. splits; auto; lia.
Qed.

Lemma canon_zero : forall x, canon x -> sval x = 0 -> exists s, x = S754_zero s.
Proof.
  intros x C E. destruct x as [s|s| |s m e]; cbn [canon] in C; try contradiction; [eauto|].
  exfalso. cbn [sval] in E. apply Z.mul_eq_0 in E.
  assert (0 < 2 ^ (e + 200)) by (apply Z.pow_pos_nonneg; lia). destruct s; cbn [cond_Zopp] in E; lia.
Qed.

Lemma mul_exact : forall x y a k, canon x -> canon y -> 0 <= sval x -> 0 <= sval y ->
  sval x * sval y = a * 2 ^ (k + 200) -> 176 <= k <= 220 -> a < 2 ^ 24 ->
  canon (f32_mul x y) /\ sval (f32_mul x y) = a * 2 ^ k.
Proof.
  intros x y a k Cx Cy Nx Ny E Hk Ha. unfold f32_mul.
  assert (P2 : 0 < 2 ^ (k + 200)) by (apply Z.pow_pos_nonneg; lia).
  assert (ZC : sval x = 0 \/ sval y = 0 -> a = 0).
  { intros H. assert (a * 2 ^ (k + 200) = 0) by (destruct H as [H|H]; rewrite <- E, H; ring).
    apply Z.mul_eq_0 in H0. lia. }
  destruct (Z.eq_dec (sval x) 0) as [Zx|Zx].
  { destruct (canon_zero x Cx Zx) as [s ->]. rewrite ZC by auto.
    destruct y; cbn in *; auto; contradiction. }
  destruct (Z.eq_dec (sval y) 0) as [Zy|Zy].
  { destruct (canon_zero y Cy Zy) as [s ->]. rewrite ZC by auto.
    destruct x; cbn in *; auto; contradiction. }
  clear ZC.
  destruct (pos_finite x Cx ltac:(lia)) as [mx [ex [Ex [Hx [Bx Sx]]]]].
  destruct (pos_finite y Cy ltac:(lia)) as [my [ey [Ey [Hy [By Sy]]]]].
  rewrite Sx, Sy in E. rewrite Ex, Ey. cbn [SFmul xorb]. clear Ex Ey Sx Sy Nx Ny Zx Zy Cx Cy x y.
  destruct (mul_core mx ex my ey) as [d [Hd [Hb V]]]; try tauto.
  destruct (V ltac:(lia)) as [V1|]; [|lia]. clear V. rewrite E in V1.
  assert (V2 : Zpos (mx * my) * 2 ^ (ex + ey + 200) = a * 2 ^ k).
  { apply (Z.mul_reg_r _ _ (2 ^ 200)); [lia|]. rewrite <- !Z.mul_assoc, <- !Z.pow_add_r by lia.
    replace (ex + ey + 200 + 200) with (ex + ey + 400) by lia. exact V1. }
  clear V1 E P2. set (p := Zpos (mx * my)) in *.
  assert (P4 : 0 < 2 ^ (ex + ey + 200)) by (apply Z.pow_pos_nonneg; lia).
  assert (P5 : 0 < 2 ^ k) by (apply Z.pow_pos_nonneg; lia).
  assert (A0 : 0 < a).
  { apply (Z.mul_pos_cancel_r a (2 ^ k)); auto. rewrite <- V2. apply Z.mul_pos_pos; lia. }
  destruct (unit_change p (ex + ey + 200) a k) as [a' [k' [Hk' [E' La]]]]; try lia.
  assert (DS : 176 < d + (ex + ey + 200) <= 244).
  { apply (digits_scaled p); try lia. rewrite V2.
    assert (2 ^ 176 <= 2 ^ k) by (apply Z.pow_le_mono_r; lia).
    assert (2 ^ k <= 2 ^ 220) by (apply Z.pow_le_mono_r; lia).
    assert (2 ^ 244 = 2 ^ 24 * 2 ^ 220) by (rewrite <- Z.pow_add_r by lia; reflexivity).
    split.
    - apply Z.le_trans with (1 * 2 ^ k); [lia|]. apply Z.mul_le_mono_nonneg_r; lia.
    - apply Z.le_lt_trans with (a * 2 ^ 220); [apply Z.mul_le_mono_nonneg_l; lia|]. rewrite H1. apply Z.mul_lt_mono_pos_r; lia. }
  destruct (round_aux_exact false p (ex + ey) d a' k') as [C W]; try lia.
  split; [exact C|]. etransitivity; [exact W|exact V2].
Qed.

Lemma mul_near : forall x y, canon x -> canon y ->
  2 ^ 190 <= sval x < 2 ^ 220 -> 2 ^ 190 <= sval y < 2 ^ 220 ->
  let r := f32_mul x y in
  canon r /\ exists M u, 0 <= u /\ 2 ^ 23 <= M <= 2 ^ 24 /\ sval r = M * 2 ^ u /\
    - (2 ^ u * 2 ^ 200) <= 2 * (sval r * 2 ^ 200 - sval x * sval y) <= 2 ^ u * 2 ^ 200.
Proof.
  intros x y Cx Cy Nx Ny.
  destruct (pos_finite x Cx ltac:(lia)) as [mx [ex [Ex [Hx [Bx Sx]]]]].
  destruct (pos_finite y Cy ltac:(lia)) as [my [ey [Ey [Hy [By Sy]]]]].
  cbn zeta. rewrite Sx, Sy in *. rewrite Ex, Ey. unfold f32_mul. cbn [SFmul xorb].
  destruct (mul_core mx ex my ey) as [d [Hd [Hb V]]]; try tauto.
  destruct (V ltac:(lia)) as [V1|]; [|lia].
  assert (Dx : 190 < 24 + (ex + 200) <= 220) by (apply (digits_scaled (Zpos mx)); try lia).
  assert (Dy : 190 < 24 + (ey + 200) <= 220) by (apply (digits_scaled (Zpos my)); try lia).
  destruct (round_aux_near false (Zpos (mx * my)) (ex + ey) loc_Exact d) as [C [M [u [Hu [HM [BM SM]]]]]]; try lia.
  cbn zeta in *. split; [exact C|]. exists M, (u + 200). splits; try lia; try exact SM.
  - rewrite SM, <- V1. cbn [cond_Zopp loc2] in *. rewrite Z.add_0_r in HM.
    pose proof (rne_near (4 * Zpos (mx * my)) (d - 22) ltac:(lia)) as [N1 N2]. rewrite <- HM in N1, N2.
    replace (2 ^ (d - 22)) with (4 * 2 ^ (d - 24)) in * by (rewrite (pow_split 2 (d - 22)) by lia; replace (d - 22 - 2) with (d - 24) by lia; reflexivity).
    set (T := 2 ^ (d - 24)) in *. set (p := Zpos (mx * my)) in *.
    assert (P : 0 < 2 ^ (ex + ey + 400)) by (apply Z.pow_pos_nonneg; lia).
    assert (EU : 2 ^ (u + 200) * 2 ^ 200 = T * 2 ^ (ex + ey + 400)).
    { unfold T. rewrite <- !Z.pow_add_r by lia. f_equal. lia. }
    assert (EM : M * 2 ^ (u + 200) * 2 ^ 200 = M * T * 2 ^ (ex + ey + 400)) by (rewrite <- !Z.mul_assoc, EU; reflexivity).
    rewrite EU, EM. nia.
  - rewrite SM, <- V1. cbn [cond_Zopp loc2] in *. rewrite Z.add_0_r in HM.
    pose proof (rne_near (4 * Zpos (mx * my)) (d - 22) ltac:(lia)) as [N1 N2]. rewrite <- HM in N1, N2.
    replace (2 ^ (d - 22)) with (4 * 2 ^ (d - 24)) in * by (rewrite (pow_split 2 (d - 22)) by lia; replace (d - 22 - 2) with (d - 24) by lia; reflexivity).
    set (T := 2 ^ (d - 24)) in *. set (p := Zpos (mx * my)) in *.
    assert (P : 0 < 2 ^ (ex + ey + 400)) by (apply Z.pow_pos_nonneg; lia).
    assert (EU : 2 ^ (u + 200) * 2 ^ 200 = T * 2 ^ (ex + ey + 400)).
    { unfold T. rewrite <- !Z.pow_add_r by lia. f_equal. lia. }
    assert (EM : M * 2 ^ (u + 200) * 2 ^ 200 = M * T * 2 ^ (ex + ey + 400)) by (rewrite <- !Z.mul_assoc, EU; reflexivity).
    rewrite EU, EM. nia.
Qed.

(** Nearness of the rounded quotient: [X / (m2 * T)], [T] = 1 or 2. *)
Lemma div_round : forall X m2 q r d, 0 < m2 -> X = m2 * q + r -> 0 <= r < m2 -> d = 24 \/ d = 25 ->
  let M := rne (4 * q + loc2 (new_location m2 r)) (d - 22) in
  let D := m2 * 2 ^ (d - 24) in
  - D <= 2 * (M * D - X) <= D.
Proof.
  intros X m2 q r d Hm EX Hr Hd.
  assert (L : let l := loc2 (new_location m2 r) in
     (l = 0 /\ r = 0) \/ (l = 1 /\ 0 < 2 * r < m2) \/ (l = 2 /\ 2 * r = m2) \/ (l = 3 /\ m2 < 2 * r)).
  { unfold new_location. destruct (Z.even m2) eqn:EV.
    - unfold new_location_even. destruct (Zeq_bool r 0) eqn:E0.
      + apply Zeq_bool_eq in E0. cbn. lia.
      + apply Zeq_bool_neq in E0. destruct (Z.compare_spec (2 * r) m2); cbn [loc2]; lia.
    - unfold new_location_odd. destruct (Zeq_bool r 0) eqn:E0.
      + apply Zeq_bool_eq in E0. cbn. lia.
      + apply Zeq_bool_neq in E0. assert (O : Z.odd m2 = true) by (rewrite <- Z.negb_even, EV; reflexivity).
        apply Z.odd_spec in O. destruct O as [h Oh].
        destruct (Z.compare_spec (2 * r + 1) m2); cbn [loc2]; lia. }
  cbn zeta in *. set (l := loc2 (new_location m2 r)) in *.
  pose proof (rne_near (4 * q + l) (d - 22) ltac:(lia)) as [N1 N2].
  set (M := rne (4 * q + l) (d - 22)) in *.
  destruct Hd as [-> | ->].
  - change (2 ^ (24 - 22)) with 4 in *. change (2 ^ (24 - 24)) with 1.
    rewrite EX. clear EX X.
    assert (C : M = q /\ 2 * r <= m2 \/ M = q + 1 /\ m2 <= 2 * r) by lia.
    destruct C as [[-> C]|[-> C]]; nia.
  - change (2 ^ (25 - 22)) with 8 in *. change (2 ^ (25 - 24)) with 2.
    rewrite EX. clear EX X.
    assert (C : 2 * M = q \/ (2 * M = q - 1 /\ r = 0) \/ 2 * M = q + 1) by lia.
    destruct C as [C|[[C ->]|C]]; nia.
Qed.

Lemma div_near : forall x y, canon x -> canon y ->
  2 ^ 200 <= sval x < 2 ^ 220 -> 2 ^ 200 <= sval y < 2 ^ 220 ->
  let r := f32_div x y in
  canon r /\ exists M u, 0 <= u /\ 2 ^ 23 <= M <= 2 ^ 24 /\ sval r = M * 2 ^ u /\
    - (2 ^ u * sval y) <= 2 * (sval r * sval y - sval x * 2 ^ 200) <= 2 ^ u * sval y.
Proof.
  intros x y Cx Cy Nx Ny.
  destruct (pos_finite x Cx ltac:(lia)) as [mx [ex [Ex [Hx [Bx Sx]]]]].
  destruct (pos_finite y Cy ltac:(lia)) as [my [ey [Ey [Hy [By Sy]]]]].
  cbn zeta. rewrite Sx, Sy in *. rewrite Ex, Ey. unfold f32_div. cbn [SFdiv xorb].
  assert (Dx : 200 < 24 + (ex + 200) <= 220) by (apply (digits_scaled (Zpos mx)); try lia).
  assert (Dy : 200 < 24 + (ey + 200) <= 220) by (apply (digits_scaled (Zpos my)); try lia).
  unfold SFdiv_core_binary. rewrite (Zdigits2_eq (Zpos mx) 24), (Zdigits2_eq (Zpos my) 24) by (cbn; lia).
  unfold fexp, emin.
  replace (Z.min (Z.max (24 + ex - (24 + ey) - 24) (3 - 128 - 24)) (ex - ey)) with (ex - ey - 24) by lia.
  replace (ex - ey - (ex - ey - 24)) with 24 by lia. rewrite Z.shiftl_mul_pow2 by lia.
  pose proof (Z_div_mod (Zpos mx * 2 ^ 24) (Zpos my) ltac:(lia)) as DM.
  destruct (Z.div_eucl (Zpos mx * 2 ^ 24) (Zpos my)) as [q r]. destruct DM as [DM Rr].
  assert (BQ : 2 ^ 23 <= q < 2 ^ 25) by nia.
  assert (HD : exists d, (d = 24 \/ d = 25) /\ 2 ^ (d - 1) <= q < 2 ^ d).
  { destruct (Z_lt_le_dec q (2 ^ 24)); [exists 24|exists 25]; cbn; lia. }
  destruct HD as [d [Hd Hb]].
  destruct (round_aux_near false q (ex - ey - 24) (new_location (Zpos my) r) d) as [C [M [u [Hu [HM [BM SM]]]]]]; try lia.
  cbn zeta in *. split; [exact C|]. exists M, (u + 200).
  pose proof (div_round (Zpos mx * 2 ^ 24) (Zpos my) q r d ltac:(lia) DM Rr Hd) as N. cbn zeta in N. rewrite <- HM in N.
  rewrite SM. cbn [cond_Zopp]. set (T := 2 ^ (d - 24)) in *.
  assert (P : 0 < 2 ^ (ex + 376)) by (apply Z.pow_pos_nonneg; lia).
  assert (EU : 2 ^ (u + 200) * 2 ^ (ey + 200) = T * 2 ^ (ex + 376)).
  { unfold T. rewrite <- !Z.pow_add_r by lia. f_equal. lia. }
  assert (EX : 2 ^ (ex + 200) * 2 ^ 200 = 2 ^ 24 * 2 ^ (ex + 376)) by (rewrite <- !Z.pow_add_r by lia; f_equal; lia).
  assert (A1 : 2 ^ (u + 200) * (Zpos my * 2 ^ (ey + 200)) = Zpos my * T * 2 ^ (ex + 376)).
  { transitivity (Zpos my * (2 ^ (u + 200) * 2 ^ (ey + 200))); [ring|]. rewrite EU. ring. }
  assert (A2 : M * 2 ^ (u + 200) * (Zpos my * 2 ^ (ey + 200)) = M * (Zpos my * T) * 2 ^ (ex + 376)).
  { transitivity (M * (2 ^ (u + 200) * (Zpos my * 2 ^ (ey + 200)))); [ring|]. rewrite A1. ring. }
  assert (A3 : Zpos mx * 2 ^ (ex + 200) * 2 ^ 200 = Zpos mx * 2 ^ 24 * 2 ^ (ex + 376)).
  { transitivity (Zpos mx * (2 ^ (ex + 200) * 2 ^ 200)); [ring|]. rewrite EX. ring. }
  rewrite A1, A2, A3. clear A1 A2 A3.
  set (D := Zpos my * T) in *. set (X := Zpos mx * 2 ^ 24) in *.
  splits; try lia; nia.
Qed.

(** ** Conversions back to integers *)
Lemma ceil_sval : forall x, canon x -> f32_ceil x = Some (- (- sval x / 2 ^ 200)).
Proof.
  intros x C. destruct x as [s|s| |s m e]; cbn [canon] in C; try contradiction; [reflexivity|].
  cbn [f32_ceil sval]. replace (if s then Zneg m else Zpos m) with (cond_Zopp s (Zpos m)) by (destruct s; reflexivity).
  set (v := cond_Zopp s (Zpos m)). f_equal. destruct (Z.leb_spec 0 e).
  - replace (e + 200) with (e + 200) by lia. rewrite Z.pow_add_r by lia.
    replace (- (v * (2 ^ e * 2 ^ 200))) with (- (v * 2 ^ e) * 2 ^ 200) by ring. rewrite Z.div_mul by lia. ring.
  - f_equal. rewrite (pow_split (e + 200) 200) by lia. replace (200 - (e + 200)) with (- e) by lia.
    assert (0 < 2 ^ (e + 200)) by (apply Z.pow_pos_nonneg; lia).
    assert (0 < 2 ^ (- e)) by (apply Z.pow_pos_nonneg; lia).
    replace (- (v * 2 ^ (e + 200))) with (- v * 2 ^ (e + 200)) by ring.
    rewrite (Z.mul_comm (2 ^ (e + 200))), Z.div_mul_cancel_r by lia. reflexivity.
Qed.

Lemma trunc_sval : forall x, canon x -> 0 <= sval x -> f32_trunc x = Some (sval x / 2 ^ 200).
Proof.
  intros x C N. destruct (Z.eq_dec (sval x) 0) as [E|E].
  - destruct x as [s|s| |s m e]; cbn [canon] in C; try contradiction; [reflexivity|].
    exfalso. cbn [sval] in E. assert (0 < 2 ^ (e + 200)) by (apply Z.pow_pos_nonneg; lia). destruct s; cbn [cond_Zopp] in E; nia.
  - destruct (pos_finite x C ltac:(lia)) as [m [e [-> [Hm [He S]]]]]. rewrite S. cbn [f32_trunc]. f_equal.
    destruct (Z.leb_spec 0 e).
    + rewrite Z.pow_add_r by lia. rewrite Z.mul_assoc, Z.div_mul by lia. reflexivity.
    + rewrite (pow_split (e + 200) 200) by lia. replace (200 - (e + 200)) with (- e) by lia.
      assert (0 < 2 ^ (e + 200)) by (apply Z.pow_pos_nonneg; lia).
      assert (0 < 2 ^ (- e)) by (apply Z.pow_pos_nonneg; lia).
      rewrite (Z.mul_comm (2 ^ (e + 200))), Z.div_mul_cancel_r by lia. reflexivity.
Qed.

(** ** Frame geometry *)
(** Rounding up: the least integer not below [a / b]. *)
Lemma ceil_unique : forall a b c, 0 < b -> (c - 1) * b < a <= c * b -> - (- a / b) = c.
Proof.
  intros a b c Hb H. assert (- a / b = - c); [|lia].
  symmetry. apply Z.div_unique with (- a + c * b); [left; lia|ring].
Qed.

Lemma ceil_spec : forall a b, 0 < b -> (- (- a / b) - 1) * b < a <= - (- a / b) * b.
Proof.
  intros a b Hb. pose proof (Z.div_mod (- a) b ltac:(lia)). pose proof (Z.mod_pos_bound (- a) b Hb). nia.
Qed.

(** Small division facts in the scaled world: [M / H] close to [a / b]. *)
Lemma ceil_near : forall a b M H, 0 < b -> b < H -> 0 <= a ->
  - b <= 2 * (M * b - a * H) <= b -> - (- M / H) = - (- a / b).
Proof.
  intros a b M H Hb HH Ha N. pose proof (ceil_spec a b Hb) as C. set (c := - (- a / b)) in *.
  apply ceil_unique; [lia|]. split.
  - assert (1 + (c - 1) * b <= a) by lia.
    assert (L1 : (1 + (c - 1) * b) * H <= a * H) by (apply Z.mul_le_mono_nonneg_r; lia).
    assert (L2 : 2 * ((c - 1) * H * b) < 2 * (M * b)).
    { replace ((c - 1) * H * b) with ((c - 1) * b * H) by ring. lia. }
    apply (Z.mul_lt_mono_pos_r b); lia.
  - assert (L1 : a * H <= c * b * H) by (apply Z.mul_le_mono_nonneg_r; lia).
    destruct (Z_le_gt_dec M (c * H)); auto. exfalso.
    assert (L2 : (c * H + 1) * b <= M * b) by (apply Z.mul_le_mono_nonneg_r; lia).
    replace (c * b * H) with (c * H * b) in L1 by ring. lia.
Qed.

Lemma unit_bound : forall M u S, 2 ^ 23 <= M -> S = M * 2 ^ u -> 0 <= u -> S < 2 ^ 218 -> u < 195.
Proof.
  intros M u S HM E Hu HS. destruct (Z_lt_le_dec u 195); auto. exfalso.
  assert (2 ^ 195 <= 2 ^ u) by (apply Z.pow_le_mono_r; lia).
  assert (2 ^ 23 * 2 ^ 195 <= M * 2 ^ u) by (apply Z.mul_le_mono_nonneg; lia).
  change (2 ^ 23 * 2 ^ 195) with (2 ^ 218) in H0. lia.
Qed.

Lemma scaled_ceil : forall M u, 0 <= u <= 200 -> - (- (M * 2 ^ u) / 2 ^ 200) = - (- M / 2 ^ (200 - u)).
Proof.
  intros M u Hu. rewrite (pow_split u 200) by lia.
  assert (0 < 2 ^ u) by (apply Z.pow_pos_nonneg; lia).
  assert (0 < 2 ^ (200 - u)) by (apply Z.pow_pos_nonneg; lia).
  replace (- (M * 2 ^ u)) with (- M * 2 ^ u) by ring.
  rewrite (Z.mul_comm (2 ^ u)), Z.div_mul_cancel_r by lia. reflexivity.
Qed.

Lemma div_ceil : forall x y a b, canon x -> canon y -> sval x = a * 2 ^ 200 -> sval y = b * 2 ^ 200 ->
  0 < a < 2 ^ 16 -> 0 < b <= 32 -> f32_ceil (f32_div x y) = Some (- (- a / b)).
Proof.
  intros x y a b Cx Cy Sx Sy Ha Hb.
  destruct (div_near x y Cx Cy) as [C [M [u [Hu [HM [E N]]]]]].
  { rewrite Sx. change (2 ^ 220) with (2 ^ 20 * 2 ^ 200). split; [|apply Z.mul_lt_mono_pos_r; lia].
    rewrite <- (Z.mul_1_l (2 ^ 200)) at 1. apply Z.mul_le_mono_nonneg_r; lia. }
  { rewrite Sy. change (2 ^ 220) with (2 ^ 20 * 2 ^ 200). split; [|apply Z.mul_lt_mono_pos_r; lia].
    rewrite <- (Z.mul_1_l (2 ^ 200)) at 1. apply Z.mul_le_mono_nonneg_r; lia. }
  cbn zeta in *. rewrite (ceil_sval _ C). f_equal.
  set (S := sval (f32_div x y)) in *. rewrite Sx, Sy in N.
  assert (N' : - (2 ^ u * b) <= 2 * (S * b - a * 2 ^ 200) <= 2 ^ u * b).
  { replace (2 ^ u * (b * 2 ^ 200)) with (2 ^ u * b * 2 ^ 200) in N by ring.
    replace (2 * (S * (b * 2 ^ 200) - a * 2 ^ 200 * 2 ^ 200)) with (2 * (S * b - a * 2 ^ 200) * 2 ^ 200) in N by ring.
    split; apply (Z.mul_le_mono_pos_r _ _ (2 ^ 200)); lia. }
  clear N. assert (P : 0 < 2 ^ u) by (apply Z.pow_pos_nonneg; lia).
  assert (U : u < 195).
  { apply (unit_bound M u S); try lia.
    assert (B0 : 0 <= S) by (rewrite E; apply Z.mul_nonneg_nonneg; lia).
    assert (B1 : 2 * S * 1 <= 2 * S * b) by (apply Z.mul_le_mono_nonneg_l; lia).
    assert (B2 : a * 2 ^ 200 < 2 ^ 16 * 2 ^ 200) by (apply Z.mul_lt_mono_pos_r; lia).
    change (2 ^ 16 * 2 ^ 200) with (2 ^ 216) in B2.
    assert (B3 : 2 ^ u * 2 ^ 23 <= S) by (rewrite E, (Z.mul_comm M); apply Z.mul_le_mono_nonneg_l; lia).
    assert (2 ^ u * b <= 2 ^ u * 32) by (apply Z.mul_le_mono_nonneg_l; lia).
    change (2 ^ 218) with (4 * 2 ^ 216). change (2 ^ 23) with 8388608 in B3. lia. }
  rewrite E, scaled_ceil by lia. apply ceil_near; try lia.
  - assert (2 ^ 6 <= 2 ^ (200 - u)) by (apply Z.pow_le_mono_r; lia). change (2 ^ 6) with 64 in H. lia.
  - rewrite E in N'. rewrite (pow_split u 200) in N' by lia. set (H := 2 ^ (200 - u)) in *.
    replace (2 * (M * 2 ^ u * b - a * (2 ^ u * H))) with (2 * (M * b - a * H) * 2 ^ u) in N' by ring.
    split; apply (Z.mul_le_mono_pos_r _ _ (2 ^ u)); lia.
Qed.

(** Thirds: the float next to 1/3 is (2^25 + 1) / (3 * 2^25). *)
Lemma third_ceil : forall a S, 0 < a < 2 ^ 17 ->
  (exists M u, 0 <= u /\ 2 ^ 23 <= M <= 2 ^ 24 /\ S = M * 2 ^ u /\
    - (3 * 2 ^ u) <= 2 * (3 * S - a * (2 ^ 200 + 2 ^ 175)) <= 3 * 2 ^ u) ->
  - (- S / 2 ^ 200) = - (- a / 3).
Proof.
  intros a S Ha [M [u [Hu [HM [E N]]]]].
  assert (P : 0 < 2 ^ u) by (apply Z.pow_pos_nonneg; lia).
  assert (U : u < 195).
  { apply (unit_bound M u S); try lia.
    assert (B2 : a * (2 ^ 200 + 2 ^ 175) < 2 ^ 17 * (2 ^ 200 + 2 ^ 175)) by (apply Z.mul_lt_mono_pos_r; lia).
    assert (B3 : 2 ^ u * 2 ^ 23 <= S) by (rewrite E, (Z.mul_comm M); apply Z.mul_le_mono_nonneg_l; lia).
    change (2 ^ 23) with 8388608 in B3. change (2 ^ 218) with (4 * (2 ^ 17 * (2 ^ 199))).
    change (2 ^ 17 * (2 ^ 200 + 2 ^ 175)) with (2 ^ 17 * 2 ^ 200 + 2 ^ 192) in B2. lia. }
  rewrite E, scaled_ceil by lia. set (H := 2 ^ (200 - u)).
  assert (H64 : 2 ^ 6 <= H) by (apply Z.pow_le_mono_r; lia).
  assert (EH : 2 ^ 200 = 2 ^ u * H) by (apply pow_split; lia).
  pose proof (ceil_spec a 3 ltac:(lia)) as C. set (c := - (- a / 3)) in *.
  assert (E175 : 2 ^ 200 = 2 ^ 25 * 2 ^ 175) by (rewrite <- Z.pow_add_r by lia; reflexivity).
  (* scaled by 2^25 to stay integral: 2^25 * 2 * (3 S) against a (2^25 + 1) 2^u H *)
  assert (N' : - (3 * 2 ^ 25) <= 2 * (3 * M * 2 ^ 25 - a * (2 ^ 25 + 1) * H) <= 3 * 2 ^ 25).
  { assert (A : 2 ^ u * (2 * (3 * M * 2 ^ 25 - a * (2 ^ 25 + 1) * H)) = 2 ^ 25 * (2 * (3 * S - a * (2 ^ 200 + 2 ^ 175)))).
    { rewrite E. assert (2 ^ 25 * (2 ^ 200 + 2 ^ 175) = (2 ^ 25 + 1) * 2 ^ 200) by (rewrite E175; ring).
      transitivity (2 * (3 * (M * 2 ^ u) * 2 ^ 25 - a * (2 ^ 25 * (2 ^ 200 + 2 ^ 175)))); [rewrite H0, EH; ring|ring]. }
    split; apply (Z.mul_le_mono_pos_l _ _ (2 ^ u)); auto; rewrite A; lia. }
  clear N E S EH E175. apply ceil_unique; [lia|].
  destruct (Z.eq_dec a (c * 3)) as [Ea|Na].
  - (* exact: M = c H *)
    rewrite Ea in N'.
    assert (N2 : - 2 ^ 25 <= 2 * ((M - c * H) * 2 ^ 25 - c * H) <= 2 ^ 25).
    { replace (2 * (3 * M * 2 ^ 25 - c * 3 * (2 ^ 25 + 1) * H)) with (3 * (2 * ((M - c * H) * 2 ^ 25 - c * H))) in N' by ring. lia. }
    set (w := c * H) in *. assert (0 < w) by (apply Z.mul_pos_pos; lia).
    change (2 ^ 25) with 33554432 in *. change (2 ^ 24) with 16777216 in *.
    assert (M = w) by lia. subst M. unfold w. split; [|lia]. apply Z.mul_lt_mono_pos_r; lia.
  - assert (A1 : ((c - 1) * 3 + 1) * H <= a * H) by (apply Z.mul_le_mono_nonneg_r; lia).
    assert (A2 : a * H <= (c * 3 - 1) * H) by (apply Z.mul_le_mono_nonneg_r; lia).
    assert (A3 : a * H <= 2 ^ 17 * H) by (apply Z.mul_le_mono_nonneg_r; lia).
    replace (a * (2 ^ 25 + 1) * H) with (a * H * 2 ^ 25 + a * H) in N' by ring.
    set (w := a * H) in *. assert (0 < w) by (apply Z.mul_pos_pos; lia).
    replace (((c - 1) * 3 + 1) * H) with (3 * ((c - 1) * H) + H) in A1 by ring.
    replace ((c * 3 - 1) * H) with (3 * (c * H) - H) in A2 by ring.
    set (x := (c - 1) * H) in *. set (y := c * H) in *.
    change (2 ^ 25) with 33554432 in *. change (2 ^ 17) with 131072 in *. change (2 ^ 6) with 64 in *. lia.
Qed.
