(** The [f32] row arithmetic of the upsampler. *)
From Verif Require Import Base Tactics F32 F32P Idct Color Types Upsampler SpecUpsample.
From Coq Require Import Floats.SpecFloat.

Lemma canon_nonneg_exp : forall e, -50 <= e <= 50 -> 0 < 2 ^ (e + 200).
Proof. intros. apply Z.pow_pos_nonneg; lia. Qed.

Lemma compare_pos : forall m1 e1 m2 e2, 2 ^ 23 <= Zpos m1 < 2 ^ 24 -> 2 ^ 23 <= Zpos m2 < 2 ^ 24 ->
  -50 <= e1 <= 50 -> -50 <= e2 <= 50 -> e1 < e2 -> Zpos m1 * 2 ^ (e1 + 200) < Zpos m2 * 2 ^ (e2 + 200).
Proof.
  intros m1 e1 m2 e2 H1 H2 He1 He2 L. replace (e2 + 200) with ((e1 + 200) + (e2 - e1)) by lia.
  rewrite (Z.pow_add_r 2 (e1 + 200) (e2 - e1)) by lia. pose proof (canon_nonneg_exp e1 He1).
  assert (2 ^ 1 <= 2 ^ (e2 - e1)) by (apply Z.pow_le_mono_r; lia). change (2 ^ 1) with 2 in *.
  set (a := 2 ^ (e1 + 200)) in *. set (b := 2 ^ (e2 - e1)) in *. clearbody a b. change (2 ^ 23) with 8388608 in *. change (2 ^ 24) with 16777216 in *.
  assert (Zpos m2 * (a * 2) <= Zpos m2 * (a * b)) by (apply Z.mul_le_mono_nonneg_l; nia). nia.
Qed.

Lemma compare_sval : forall x y, canon x -> canon y -> SFcompare x y = Some (Z.compare (sval x) (sval y)).
Proof.
  intros x y Cx Cy.
  destruct x as [sx|sx| |sx mx ex]; try contradiction; destruct y as [sy|sy| |sy my ey]; try contradiction; cbn [canon sval SFcompare] in *.
  - reflexivity.
  - pose proof (canon_nonneg_exp ey ltac:(tauto)). f_equal. symmetry. destruct sy; cbn [cond_Zopp].
    + apply Z.compare_gt_iff. nia.
    + apply Z.compare_lt_iff. nia.
  - pose proof (canon_nonneg_exp ex ltac:(tauto)). f_equal. symmetry. destruct sx; cbn [cond_Zopp].
    + apply Z.compare_lt_iff. nia.
    + apply Z.compare_gt_iff. nia.
  - destruct Cx as [Hx Ex], Cy as [Hy Ey]. pose proof (canon_nonneg_exp ex Ex). pose proof (canon_nonneg_exp ey Ey).
    destruct sx, sy; cbn [cond_Zopp]; f_equal; symmetry.
    + destruct (Z.compare_spec ex ey) as [E|L|L].
      * subst ey. change (Pos.compare_cont Eq mx my) with (Pos.compare mx my). rewrite <- Pos.compare_antisym.
        change (Pos.compare my mx) with (Z.compare (Zpos my) (Zpos mx)).
        destruct (Z.compare_spec (Zpos my) (Zpos mx)).
        -- apply Z.compare_eq_iff. nia.
        -- apply Z.compare_lt_iff. nia.
        -- apply Z.compare_gt_iff. nia.
      * apply Z.compare_gt_iff. pose proof (compare_pos mx ex my ey Hx Hy Ex Ey L). nia.
      * apply Z.compare_lt_iff. pose proof (compare_pos my ey mx ex Hy Hx Ey Ex L). nia.
    + apply Z.compare_lt_iff. nia.
    + apply Z.compare_gt_iff. nia.
    + destruct (Z.compare_spec ex ey) as [E|L|L].
      * subst ey. change (Pos.compare_cont Eq mx my) with (Z.compare (Zpos mx) (Zpos my)).
        destruct (Z.compare_spec (Zpos mx) (Zpos my)).
        -- apply Z.compare_eq_iff. nia.
        -- apply Z.compare_lt_iff. nia.
        -- apply Z.compare_gt_iff. nia.
      * apply Z.compare_lt_iff. apply (compare_pos mx ex my ey); auto.
      * apply Z.compare_gt_iff. apply (compare_pos my ey mx ex); auto.
Qed.

Lemma min_sval : forall x y, canon x -> canon y -> canon (f32_min x y) /\ sval (f32_min x y) = Z.min (sval x) (sval y).
Proof.
  intros x y Cx Cy. unfold f32_min. rewrite compare_sval by auto.
  destruct (Z.compare_spec (sval x) (sval y)); split; auto; lia.
Qed.

Lemma usize_neg : forall x, canon x -> sval x <= 0 -> f32_usize x = 0.
Proof.
  intros x C N. destruct x as [s|s| |s m e]; try contradiction; [reflexivity|].
  cbn [canon sval] in *. pose proof (canon_nonneg_exp e ltac:(tauto)). destruct s; cbn [cond_Zopp] in N; [|nia].
  unfold f32_usize. cbn [f32_trunc f32_sat].
  assert (0 <= (if 0 <=? e then Z.pos m * 2 ^ e else Z.pos m / 2 ^ (- e))).
  { destruct (Z.leb_spec 0 e); [apply Z.mul_nonneg_nonneg; [lia|apply Z.pow_nonneg; lia]|apply Z.div_pos; [lia|apply Z.pow_pos_nonneg; lia]]. }
  set (a := if 0 <=? e then _ else _) in *. clearbody a. change (2 ^ 64 - 1) with 18446744073709551615. lia.
Qed.

Lemma usize_pos : forall x, canon x -> 0 <= sval x -> sval x / 2 ^ 200 < 2 ^ 32 -> f32_usize x = sval x / 2 ^ 200.
Proof.
  intros x C N B. unfold f32_usize. rewrite trunc_sval by auto. cbn [f32_sat].
  assert (0 <= sval x / 2 ^ 200) by (apply Z.div_pos; [auto|apply Z.pow_pos_nonneg; lia]).
  set (a := sval x / 2 ^ 200) in *. clearbody a. change (2 ^ 64 - 1) with 18446744073709551615. change (2 ^ 32) with 4294967296 in B. lia.
Qed.

Lemma half_exact : forall r, 0 <= r < 2 ^ 17 -> canon (row_near_f r) /\ sval (row_near_f r) = r * 2 ^ 199.
Proof.
  intros r Hr. unfold row_near_f. destruct (Z.eq_dec r 0) as [->|Hz]; [vm_compute; auto|].
  destruct (of_Z_exact r) as [C S]; [change (2 ^ 17) with 131072 in Hr; change (2 ^ 24) with 16777216; lia|].
  destruct (of_Z_exact 2) as [C2 S2]; [change (2 ^ 24) with 16777216; lia|].
  change (2 ^ 17) with 131072 in Hr.
  assert (P : 0 < 2 ^ 200) by (apply Z.pow_pos_nonneg; lia).
  assert (E220 : 2 ^ 220 = 1048576 * 2 ^ 200) by reflexivity.
  destruct (div_near _ _ C C2) as [D [M [u [Hu [HM [E N]]]]]].
  - rewrite S, E220. set (q := 2 ^ 200) in *. clearbody q. nia.
  - rewrite S2, E220. set (q := 2 ^ 200) in *. clearbody q. nia.
  - split; auto. rewrite S, S2 in N.
    assert (E200 : 2 ^ 200 = 2 * 2 ^ 199) by reflexivity. assert (P' : 0 < 2 ^ 199) by (apply Z.pow_pos_nonneg; lia).
    assert (PU : 0 < 2 ^ u) by (apply Z.pow_pos_nonneg; lia).
    assert (K : - 2 ^ u <= 2 * (sval (f32_div (f32_of_Z r) (f32_of_Z 2)) - r * 2 ^ 199) <= 2 ^ u).
    { rewrite E200 in N. set (q := 2 ^ 199) in *. set (w := 2 ^ u) in *. set (v := sval _) in *. clearbody q w v. nia. }
    assert (U : u < 195).
    { apply (unit_bound M u (M * 2 ^ u)); auto; try lia. rewrite <- E. change (2 ^ 218) with (524288 * 2 ^ 199).
      destruct (Z_lt_le_dec u 218) as [L|L].
      - assert (2 ^ u <= 2 ^ 217) by (apply Z.pow_le_mono_r; lia). change (2 ^ 217) with (262144 * 2 ^ 199) in H.
        set (q := 2 ^ 199) in *. set (w := 2 ^ u) in *. set (v := sval _) in *. clearbody q w v. lia.
      - exfalso. assert (2 ^ 218 <= 2 ^ u) by (apply Z.pow_le_mono_r; lia). change (2 ^ 218) with (524288 * 2 ^ 199) in H.
        change (2 ^ 23) with 8388608 in HM. set (q := 2 ^ 199) in *. set (w := 2 ^ u) in *. set (v := sval _) in *. clearbody q w v. nia. }
    rewrite E in *. replace 199 with (u + (199 - u)) in * by lia. rewrite Z.pow_add_r in * by lia.
    set (z := 2 ^ (199 - u)) in *. set (w := 2 ^ u) in *. clearbody z w.
    assert (M = r * z); [|subst; ring]. nia.
Qed.

Lemma near_half : forall r, 0 <= r < 2 ^ 17 -> row_near r = r / 2.
Proof.
  intros r Hr. destruct (half_exact r Hr) as [C S]. unfold row_near. change (2 ^ 17) with 131072 in Hr.
  assert (E : sval (row_near_f r) / 2 ^ 200 = r / 2).
  { rewrite S. change (2 ^ 200) with (2 * 2 ^ 199). rewrite Z.div_mul_cancel_r; [reflexivity|lia|]. apply Z.pow_nonzero; lia. }
  rewrite usize_pos; auto; rewrite ?E; auto.
  - rewrite S. apply Z.mul_nonneg_nonneg; [lia|apply Z.pow_nonneg; lia].
  - change (2 ^ 32) with 4294967296. lia.
Qed.

Lemma quarter : canon (f32_lit 25 100) /\ sval (f32_lit 25 100) = 2 ^ 198.
Proof. vm_compute. repeat split; auto; discriminate. Qed.

Lemma far_sval : forall r last, 0 <= r < 2 ^ 17 -> 0 <= last < 2 ^ 17 ->
  let v := f32_min (f32_sub (f32_add (row_near_f r) (f32_mul (f32_fract (row_near_f r)) (f32_of_Z 3))) (f32_lit 25 100)) (f32_of_Z last) in
  canon v /\ sval v = Z.min (2 * r + 6 * (r mod 2) - 1) (4 * last) * 2 ^ 198.
Proof.
  intros r last Hr Hl. destruct (half_exact r Hr) as [C S]. change (2 ^ 17) with 131072 in *.
  assert (Q : 0 < 2 ^ 198) by (apply Z.pow_pos_nonneg; lia).
  assert (E199 : 2 ^ 199 = 2 * 2 ^ 198) by reflexivity. assert (E200 : 2 ^ 200 = 4 * 2 ^ 198) by reflexivity.
  assert (T : f32_trunc (row_near_f r) = Some (r / 2)).
  { rewrite trunc_sval by (auto; rewrite S, E199; apply Z.mul_nonneg_nonneg; lia). f_equal. rewrite S. change (2 ^ 200) with (2 * 2 ^ 199).
    apply Z.div_mul_cancel_r; lia. }
  assert (F : canon (f32_fract (row_near_f r)) /\ sval (f32_fract (row_near_f r)) = (r mod 2) * 2 ^ 199).
  { unfold f32_fract. rewrite T. destruct (of_Z_exact (r / 2)) as [CH SH]; [change (2 ^ 24) with 16777216; lia|].
    apply sub_exact; auto; lia. }
  destruct F as [CF SF].
  destruct (of_Z_exact 3) as [C3 S3]; [change (2 ^ 24) with 16777216; lia|].
  destruct (mul_exact _ _ (3 * (r mod 2)) 199 CF C3) as [CM SM]; [| | |lia| |].
  { rewrite SF, E199. apply Z.mul_nonneg_nonneg; lia. }
  { lia. }
  { rewrite SF, S3. rewrite (Z.pow_add_r 2 199 200) by lia. ring. }
  { change (2 ^ 24) with 16777216. lia. }
  destruct (add_exact _ _ (r + 3 * (r mod 2)) 199 C CM) as [CA SA]; [|lia| |].
  { rewrite S, SM. ring. }
  { change (2 ^ 24) with 16777216. lia. }
  destruct quarter as [CQ SQ].
  destruct (sub_exact _ _ (2 * r + 6 * (r mod 2) - 1) 198 CA CQ) as [CS SS]; [|lia| |].
  { rewrite SA, SQ, E199. ring. }
  { change (2 ^ 24) with 16777216. lia. }
  destruct (of_Z_exact last) as [CL SL]; [change (2 ^ 24) with 16777216; lia|].
  destruct (min_sval _ _ CS CL) as [CV SV]. cbv zeta. split; auto. rewrite SV, SS, SL, E200.
  replace (last * (4 * 2 ^ 198)) with (4 * last * 2 ^ 198) by ring.
  rewrite <- Z.mul_min_distr_nonneg_r by lia. reflexivity.
Qed.

Lemma Zeq_is_eq_bool_eqb : forall a b, Zeq_bool a b = (a =? b).
Proof. intros. unfold Zeq_bool. destruct (Z.compare_spec a b); symmetry; [apply Z.eqb_eq|apply Z.eqb_neq|apply Z.eqb_neq]; lia. Qed.

Lemma far_neighbour : forall r last, 0 <= r < 2 ^ 17 -> 0 <= last < 2 ^ 17 -> r / 2 <= last -> row_far r last = neighbour last r.
Proof.
  intros r last Hr Hl B. destruct (far_sval r last Hr Hl) as [C S]. unfold row_far. cbv zeta in *.
  set (v := f32_min _ _) in *. clearbody v. change (2 ^ 17) with 131072 in *.
  assert (Q : 0 < 2 ^ 198) by (apply Z.pow_pos_nonneg; lia). assert (E200 : 2 ^ 200 = 4 * 2 ^ 198) by reflexivity.
  unfold neighbour. rewrite Zeven_mod. rewrite Zeq_is_eq_bool_eqb. destruct (Z.eqb_spec (r mod 2) 0) as [E|E].
  - rewrite E in S. destruct (Z.eq_dec r 0) as [->|Hz].
    + rewrite usize_neg; auto. rewrite S. apply Z.mul_nonpos_nonneg; lia.
    + assert (D : sval v / 2 ^ 200 = r / 2 - 1).
      { rewrite S, E200, Z.div_mul_cancel_r by lia. lia. }
      rewrite usize_pos; auto; rewrite ?D.
      * lia.
      * rewrite S. apply Z.mul_nonneg_nonneg; lia.
      * change (2 ^ 32) with 4294967296. lia.
  - assert (D : sval v / 2 ^ 200 = Z.min (r / 2 + 1) last).
    { rewrite S, E200, Z.div_mul_cancel_r by lia. lia. }
    rewrite usize_pos; auto; rewrite ?D.
    + rewrite S. apply Z.mul_nonneg_nonneg; lia.
    + change (2 ^ 32) with 4294967296. lia.
Qed.
