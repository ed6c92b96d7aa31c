(** Which MCUs a pixel depends on (C76). *)
From Verif Require Import Base Tactics SpecBits SpecReader SpecMarker Biterator Huffman Marker Types Parsers Idct Upsampler Decode SpecGlobal SpecStream.
From Verif Require Import SpecHuffman SpecBlock SpecTables SpecFrame SpecSegments SpecScan SpecPlane SpecUpsample SpecImage SpecColor SpecFile SpecAnswer SpecIdct SpecEncoder SpecEdit SpecFlip SpecChannel SpecLocal.
From Verif Require Import ParsersP InvP MarkerP GlobalP StreamP2 FileP ImageP BlockP UpsampleP RayonP IdctP IdctP2 AnswerP AnswerP2 AnswerP3 ReuseP PiecesP DamageP2 TransP UpsampleP2 FlatP EditP EditP2 EncoderP MosaicP FlipP FlipP3 ChannelP.

(** A sample depends on one MCU. *)
Lemma sample_local : forall lines samples cs ms ms' k c q p p' y x, plane_from lines samples cs ms k c q p -> plane_from lines samples cs ms' k c q p' ->
  let i := Z.to_nat (y / (8 * cs_v c) * mcus samples (largest (map cs_h cs)) + x / (8 * cs_h c)) in nth i ms' [] = nth i ms [] ->
  0 <= y < plane_rows lines cs c -> 0 <= x < plane_stride samples cs c -> px p' (plane_stride samples cs c) y x = px p (plane_stride samples cs c) y x.
Proof.
  intros lines samples cs ms ms' k c q p p' y x [_ P] [_ P'] i E Hy Hx. destruct (P y x Hy Hx) as [blk [qt [rows [V [N [D ->]]]]]]. destruct (P' y x Hy Hx) as [blk' [qt' [rows' [V' [N' [D' ->]]]]]]. cbv zeta in V, V'.
  assert (qt' = qt) by (eapply order_unique; eassumption). subst qt'.
  assert (Q : q_at ms' (mcus samples (largest (map cs_h cs))) k (cs_h c) (cs_v c) y x = q_at ms (mcus samples (largest (map cs_h cs))) k (cs_h c) (cs_v c) y x) by (unfold q_at, mcu_row, mcu_col; fold i; rewrite E; reflexivity).
  rewrite Q in V'. assert (blk' = blk) by (eapply order_unique; [exact V'|exact V]). subst blk'.
  assert (rows' = rows) by (specialize (D true); specialize (D' true); congruence). subst rows'. reflexivity.
Qed.

(** One axis: the position of a sample that is used, and a pixel at most one away in the same MCU. *)
Lemma axis_self : forall len f fm i, 0 <= i < len -> 1 <= f <= fm -> len = 1 \/ fm mod f = 0 -> i / ratio len f fm / (8 * f) = i / (8 * fm).
Proof.
  intros len f fm i Hi Hf R. unfold ratio. destruct (Z.eqb_spec len 1) as [->|N].
  - assert (i = 0) by lia. subst i. rewrite !Z.div_0_l by lia. reflexivity.
  - destruct R as [R|R]; [exfalso; exact (N R)|]. assert (E : fm = f * (fm / f)) by (pose proof (Z.div_mod fm f ltac:(lia)) as DM; rewrite R in DM; clear - DM; lia). assert (0 < fm / f) by (apply Z.div_str_pos; lia).
    rewrite Z.div_div by lia. f_equal. rewrite E at 2. ring.
Qed.
Lemma axis_next : forall len f fm i, 0 <= i < len -> 1 <= f <= fm -> len = 1 \/ fm mod f = 0 -> ratio len f fm = 2 ->
  exists j, 0 <= j < len /\ i - 1 <= j <= (if Z.even i then i else i + 1) /\ neighbour (extent len f fm - 1) i / (8 * f) = j / (8 * fm).
Proof.
  intros len f fm i Hi Hf R R2. pose proof R2 as R3. unfold ratio in R2. destruct (Z.eqb_spec len 1) as [|N]; [discriminate R2|]. destruct R as [R|R]; [exfalso; exact (N R)|].
  assert (E : fm = 2 * f) by (pose proof (Z.div_mod fm f ltac:(lia)) as DM; rewrite R, R2 in DM; clear - DM; lia).
  assert (S : forall j, 0 <= j < len -> j / 2 / (8 * f) = j / (8 * fm)) by (intros j Hj; pose proof (axis_self len f fm j Hj Hf (or_intror R)) as A; rewrite R3 in A; exact A).
  assert (X : extent len f fm = (len + 1) / 2).
  { unfold extent, ceil_div. rewrite E. symmetry. apply Z.div_unique with (r := (len * f + 2 * f - 1) - 2 * f * ((len + 1) / 2)); [|ring]. left. pose proof (Z.div_mod (len + 1) 2 ltac:(lia)). pose proof (Z.mod_pos_bound (len + 1) 2 ltac:(lia)). clear - H H0 Hf. generalize dependent ((len + 1) / 2). generalize dependent ((len + 1) mod 2). intros; nia. }
  rewrite X. unfold neighbour. destruct (Z.even i) eqn:Ev.
  - destruct (Z.eq_dec i 0) as [->|Ni].
    + exists 0. split; [lia|]. split; [lia|]. change (Z.max (0 / 2 - 1) 0) with 0. rewrite !Z.div_0_l by (clear - Hf; lia). reflexivity.
    + exists (i - 1). split; [lia|]. split; [lia|]. rewrite <- S by lia. f_equal. apply Z.even_spec in Ev. destruct Ev as [m ->]. replace (2 * m - 1) with (1 + (m - 1) * 2) by ring. rewrite Z.div_add by lia. rewrite (Z.mul_comm 2 m), Z.div_mul by discriminate. change (1 / 2) with 0. clear - Hi Ni. lia.
  - assert (Od : Z.odd i = true) by (rewrite <- Z.negb_even, Ev; reflexivity). apply Z.odd_spec in Od. destruct Od as [m ->].
    assert (E1 : (2 * m + 1) / 2 = m) by (rewrite (Z.mul_comm 2 m), Z.div_add_l by lia; change (1 / 2) with 0; lia). rewrite E1.
    destruct (Z_lt_le_dec (2 * m + 2) len) as [L|L].
    + exists (2 * m + 2). split; [lia|]. split; [lia|]. rewrite <- S by lia. f_equal. replace (2 * m + 2) with ((m + 1) * 2) by ring. rewrite Z.div_mul by lia. apply Z.min_l. assert (m + 2 <= (len + 1) / 2) by (apply Z.div_le_lower_bound; lia). lia.
    + exists (2 * m + 1). split; [lia|]. split; [lia|]. rewrite <- S by lia. f_equal. rewrite E1. assert (Le : len = 2 * m + 2) by lia. rewrite Le. replace (2 * m + 2 + 1) with (1 + (m + 1) * 2) by ring. rewrite Z.div_add by discriminate. change (1 / 2) with 0. clear. lia.
Qed.

Section Drawn.
  Variables (rayon : bool) (lines samples : Z) (cs : list comp_spec) (ms ms' : list mcu) (k : nat) (c : comp_spec) (q p p' : list Z) (y x : Z).
  Hypothesis (HO : header_ok lines samples cs) (Ec : nth_error cs k = Some c) (A : ratios_accepted lines samples cs c) (Hy : 0 <= y < lines) (Hx : 0 <= x < samples).
  Hypothesis (P : plane_from lines samples cs ms k c q p) (P' : plane_from lines samples cs ms' k c q p').
  Let hm := largest (map cs_h cs).
  Let vm := largest (map cs_v cs).
  Hypothesis RV : rayon = false \/ vm = 1.
  Let row := shown_row rayon vm y.
  Let same y2 x2 := mcu_of samples cs ms' y2 x2 = mcu_of samples cs ms y2 x2.

  Lemma local_facts : 1 <= cs_h c <= hm /\ 1 <= cs_v c <= vm /\ row = y / vm * vm /\ 0 <= row < lines /\ y - vm < row <= y /\ row / (8 * vm) = y / (8 * vm).
  Proof using HO Ec Hy RV.
    clear - HO Ec Hy RV. destruct HO as [_ _ Ne _ _ X]. rewrite Forall_forall in X. pose proof (nth_error_In _ _ Ec) as I. destruct (X c I) as [Fh Fv].
    assert (H1 : 1 <= cs_h c <= hm) by (pose proof (largest_ge (map cs_h cs) (cs_h c) (in_map cs_h cs c I)); unfold hm; lia).
    assert (H2 : 1 <= cs_v c <= vm) by (pose proof (largest_ge (map cs_v cs) (cs_v c) (in_map cs_v cs c I)); unfold vm; lia).
    assert (Er : row = y / vm * vm) by (unfold row, shown_row; destruct RV as [->| ->]; [reflexivity|]; destruct rayon; rewrite ?Z.mul_1_r; reflexivity).
    split; [exact H1|]. split; [exact H2|]. split; [exact Er|]. rewrite Er. clearbody vm. clear - Hy H2. pose proof (Z.div_mod y vm ltac:(lia)) as D. pose proof (Z.mod_pos_bound y vm ltac:(lia)) as M. pose proof (Z.div_pos y vm ltac:(lia) ltac:(lia)) as Q.
    rewrite (Z.mul_comm vm) in D. split; [nia|]. split; [lia|].
    rewrite (Z.mul_comm 8 vm). rewrite <- !Z.div_div by lia. rewrite Z.div_mul by lia. reflexivity.
  Qed.
  (** Samples in the MCU of a pixel that is the same. *)
  Lemma sample_pixel : forall y1 x1 y2 x2, same y2 x2 -> y1 / (8 * cs_v c) = y2 / (8 * vm) -> x1 / (8 * cs_h c) = x2 / (8 * hm) -> 0 <= y1 < plane_rows lines cs c -> 0 <= x1 < plane_stride samples cs c ->
    px p' (plane_stride samples cs c) y1 x1 = px p (plane_stride samples cs c) y1 x1.
  Proof using P P'.
    intros y1 x1 y2 x2 S E1 E2 H1 H2. apply (sample_local lines samples cs ms ms' k c q p p' y1 x1 P P'); [|exact H1|exact H2]. cbv zeta. rewrite E1, E2. exact S.
  Qed.
  Lemma drawn_local : (forall y2 x2, 0 <= y2 < lines -> 0 <= x2 < samples -> y - vm <= y2 <= y -> x - 1 <= x2 <= x + 1 -> same y2 x2) ->
    comp_drawn lines samples cs c p' row x = comp_drawn lines samples cs c p row x.
  Proof using HO Ec A Hy Hx P P' RV.
    intros S. destruct local_facts as [Fh [Fv [Er [Rw [Rn Rm]]]]]. pose proof A as (A1 & A2 & _). unfold comp_drawn. cbv zeta.
    destruct (((2 <? h_ratio samples cs c) || (2 <? v_ratio lines cs c)) && (largest (map cs_h cs) / cs_h c * (samples / (largest (map cs_h cs) / cs_h c)) <=? x)); [reflexivity|].
    fold hm in A1. fold vm in A2. destruct (covered samples _ _ x Hx Fh A1) as [H1 H2]. destruct (covered lines _ _ row Rw Fv A2) as [H3 H4].
    pose proof (extent_le samples _ _ ltac:(clear - Hx; lia) Fh) as X1. pose proof (extent_le lines _ _ ltac:(clear - Rw; lia) Fv) as X2.
    unfold comp_shown. unfold h_ratio, v_ratio. fold hm vm.
    set (hr := ratio samples (cs_h c) hm) in *. set (vr := ratio lines (cs_v c) vm) in *. set (w := extent samples (cs_h c) hm) in *. set (h := extent lines (cs_v c) vm) in *.
    (* the rows and columns in use *)
    assert (Y1 : 0 <= row / vr < h) by (clear - H3 H4 Rw; split; [apply Z.div_pos; lia|apply Z.div_lt_upper_bound; lia]). assert (X3 : 0 <= x / hr < w) by (clear - H1 H2 Hx; split; [apply Z.div_pos; lia|apply Z.div_lt_upper_bound; lia]).
    assert (YS : row / vr / (8 * cs_v c) = y / (8 * vm)) by (rewrite <- Rm; exact (axis_self lines (cs_v c) vm row Rw Fv A2)).
    assert (XS : x / hr / (8 * cs_h c) = x / (8 * hm)) by exact (axis_self samples (cs_h c) hm x Hx Fh A1).
    assert (YN : vr = 2 -> exists j, 0 <= j < lines /\ y - vm <= j <= y /\ neighbour (h - 1) row / (8 * cs_v c) = j / (8 * vm)).
    { intros V2. destruct (axis_next lines (cs_v c) vm row Rw Fv A2 V2) as [j [J1 [J2 J3]]]. exists j. split; [exact J1|]. split; [|exact J3].
      assert (Ev : Z.even row = true).
      { rewrite Er, Z.even_mul. apply orb_true_intro. right. assert (E2 : vm = 2 * cs_v c).
        { clear - V2 A2 Fv. subst vr. unfold ratio in V2. destruct (lines =? 1) eqn:E1; [discriminate V2|]. apply Z.eqb_neq in E1. destruct A2 as [A2|A2]; [congruence|]. pose proof (Z.div_mod vm (cs_v c) ltac:(lia)) as DM. rewrite V2, A2 in DM. lia. }
        rewrite E2. apply Z.even_spec. exists (cs_v c). reflexivity. }
      rewrite Ev in J2. clear - J2 Rn. lia. }
    assert (XN : hr = 2 -> exists j, 0 <= j < samples /\ x - 1 <= j <= x + 1 /\ neighbour (w - 1) x / (8 * cs_h c) = j / (8 * hm)).
    { intros V2. destruct (axis_next samples (cs_h c) hm x Hx Fh A1 V2) as [j [J1 [J2 J3]]]. exists j. split; [exact J1|]. split; [|exact J3]. clear - J2. destruct (Z.even x); lia. }
    assert (NB : forall last i, 0 <= i -> i / 2 <= last -> 0 <= neighbour last i <= last).
    { clear. intros last i Hi Hl. rewrite neighbour_parity. pose proof (Z.div_pos i 2 Hi ltac:(lia)). destruct (i mod 2 =? 0); lia. }
    assert (PR : plane_rows lines cs c = 8 * (mcus lines vm * cs_v c)) by reflexivity. assert (PS : plane_stride samples cs c = 8 * (mcus samples hm * cs_h c)) by reflexivity.
    assert (G : forall y1 x1, (y1 = row / vr \/ vr = 2 /\ y1 = neighbour (h - 1) row) -> (x1 = x / hr \/ hr = 2 /\ x1 = neighbour (w - 1) x) -> px p' (plane_stride samples cs c) y1 x1 = px p (plane_stride samples cs c) y1 x1).
    { intros y1 x1 Cy Cx.
      assert (Ky : exists y2, 0 <= y2 < lines /\ y - vm <= y2 <= y /\ y1 / (8 * cs_v c) = y2 / (8 * vm) /\ 0 <= y1 < h).
      { destruct Cy as [->|[V2 ->]].
        - exists y. split; [exact Hy|]. split; [clear - Fv; lia|]. split; [exact YS|exact Y1].
        - destruct (YN V2) as [j [J1 [J2 J3]]]. exists j. split; [exact J1|]. split; [exact J2|]. split; [exact J3|]. rewrite V2 in Y1. pose proof (NB (h - 1) row (proj1 Rw) ltac:(clear - Y1; lia)) as N1. clear - N1. lia. }
      assert (Kx : exists x2, 0 <= x2 < samples /\ x - 1 <= x2 <= x + 1 /\ x1 / (8 * cs_h c) = x2 / (8 * hm) /\ 0 <= x1 < w).
      { destruct Cx as [->|[V2 ->]].
        - exists x. split; [exact Hx|]. split; [clear; lia|]. split; [exact XS|exact X3].
        - destruct (XN V2) as [j [J1 [J2 J3]]]. exists j. split; [exact J1|]. split; [exact J2|]. split; [exact J3|]. rewrite V2 in X3. pose proof (NB (w - 1) x (proj1 Hx) ltac:(clear - X3; lia)) as N1. clear - N1. lia. }
      destruct Ky as [y2 [K1 [K2 [K3 K4]]]]. destruct Kx as [x2 [L1 [L2 [L3 L4]]]].
      apply (sample_pixel y1 x1 y2 x2 (S y2 x2 K1 L1 K2 L2) K3 L3); [rewrite PR; clear - K4 X2; lia|rewrite PS; clear - L4 X1; lia]. }
    clear - G. clearbody hr vr w h. unfold shown, double_width, double_height, double_both.
    destruct ((hr =? 1) && (vr =? 1)) eqn:K1.
    { assert (hr = 1 /\ vr = 1) as [Kh Kv] by (clear - K1; lia). subst. apply G; left; rewrite Z.div_1_r; reflexivity. }
    destruct ((hr =? 2) && (vr =? 1)) eqn:K2.
    { assert (hr = 2 /\ vr = 1) as [Kh Kv] by (clear - K2; lia). subst. rewrite !G; auto; left; rewrite Z.div_1_r; reflexivity. }
    destruct ((hr =? 1) && (vr =? 2)) eqn:K3.
    { assert (hr = 1 /\ vr = 2) as [Kh Kv] by (clear - K3; lia). subst. rewrite !G; auto; left; rewrite Z.div_1_r; reflexivity. }
    destruct ((hr =? 2) && (vr =? 2)) eqn:K4.
    { assert (hr = 2 /\ vr = 2) as [Kh Kv] by (clear - K4; lia). subst. rewrite !G; auto. }
    apply G; left; reflexivity.
  Qed.
  (** The same without [RV], in terms of the row that is shown. *)
  Lemma near_facts : 1 <= cs_h c <= hm /\ 1 <= cs_v c <= vm /\ 0 <= row < lines.
  Proof using HO Ec Hy.
    clear - HO Ec Hy. pose proof (row_range rayon lines samples cs y HO Hy) as Rw. destruct HO as [_ _ Ne _ _ X]. rewrite Forall_forall in X. pose proof (nth_error_In _ _ Ec) as I. destruct (X c I) as [Fh Fv].
    split; [pose proof (largest_ge (map cs_h cs) (cs_h c) (in_map cs_h cs c I)); unfold hm; lia|]. split; [pose proof (largest_ge (map cs_v cs) (cs_v c) (in_map cs_v cs c I)); unfold vm; lia|exact Rw].
  Qed.
  Lemma drawn_near : (forall y2 x2, 0 <= y2 < lines -> 0 <= x2 < samples -> row - 1 <= y2 <= row + 1 -> x - 1 <= x2 <= x + 1 -> same y2 x2) ->
    comp_drawn lines samples cs c p' row x = comp_drawn lines samples cs c p row x.
  Proof using HO Ec A Hy Hx P P'.
    intros S. destruct near_facts as [Fh [Fv Rw]]. pose proof A as (A1 & A2 & _). unfold comp_drawn. cbv zeta.
    destruct (((2 <? h_ratio samples cs c) || (2 <? v_ratio lines cs c)) && (largest (map cs_h cs) / cs_h c * (samples / (largest (map cs_h cs) / cs_h c)) <=? x)); [reflexivity|].
    fold hm in A1. fold vm in A2. destruct (covered samples _ _ x Hx Fh A1) as [H1 H2]. destruct (covered lines _ _ row Rw Fv A2) as [H3 H4].
    pose proof (extent_le samples _ _ ltac:(clear - Hx; lia) Fh) as X1. pose proof (extent_le lines _ _ ltac:(clear - Rw; lia) Fv) as X2.
    unfold comp_shown. unfold h_ratio, v_ratio. fold hm vm.
    set (hr := ratio samples (cs_h c) hm) in *. set (vr := ratio lines (cs_v c) vm) in *. set (w := extent samples (cs_h c) hm) in *. set (h := extent lines (cs_v c) vm) in *.
    (* the rows and columns in use *)
    assert (Y1 : 0 <= row / vr < h) by (clear - H3 H4 Rw; split; [apply Z.div_pos; lia|apply Z.div_lt_upper_bound; lia]). assert (X3 : 0 <= x / hr < w) by (clear - H1 H2 Hx; split; [apply Z.div_pos; lia|apply Z.div_lt_upper_bound; lia]).
    assert (YS : row / vr / (8 * cs_v c) = row / (8 * vm)) by exact (axis_self lines (cs_v c) vm row Rw Fv A2).
    assert (XS : x / hr / (8 * cs_h c) = x / (8 * hm)) by exact (axis_self samples (cs_h c) hm x Hx Fh A1).
    assert (YN : vr = 2 -> exists j, 0 <= j < lines /\ row - 1 <= j <= row + 1 /\ neighbour (h - 1) row / (8 * cs_v c) = j / (8 * vm)).
    { intros V2. destruct (axis_next lines (cs_v c) vm row Rw Fv A2 V2) as [j [J1 [J2 J3]]]. exists j. split; [exact J1|]. split; [|exact J3]. clear - J2. destruct (Z.even row); lia. }
    assert (XN : hr = 2 -> exists j, 0 <= j < samples /\ x - 1 <= j <= x + 1 /\ neighbour (w - 1) x / (8 * cs_h c) = j / (8 * hm)).
    { intros V2. destruct (axis_next samples (cs_h c) hm x Hx Fh A1 V2) as [j [J1 [J2 J3]]]. exists j. split; [exact J1|]. split; [|exact J3]. clear - J2. destruct (Z.even x); lia. }
    assert (NB : forall last i, 0 <= i -> i / 2 <= last -> 0 <= neighbour last i <= last).
    { clear. intros last i Hi Hl. rewrite neighbour_parity. pose proof (Z.div_pos i 2 Hi ltac:(lia)). destruct (i mod 2 =? 0); lia. }
    assert (PR : plane_rows lines cs c = 8 * (mcus lines vm * cs_v c)) by reflexivity. assert (PS : plane_stride samples cs c = 8 * (mcus samples hm * cs_h c)) by reflexivity.
    assert (G : forall y1 x1, (y1 = row / vr \/ vr = 2 /\ y1 = neighbour (h - 1) row) -> (x1 = x / hr \/ hr = 2 /\ x1 = neighbour (w - 1) x) -> px p' (plane_stride samples cs c) y1 x1 = px p (plane_stride samples cs c) y1 x1).
    { intros y1 x1 Cy Cx.
      assert (Ky : exists y2, 0 <= y2 < lines /\ row - 1 <= y2 <= row + 1 /\ y1 / (8 * cs_v c) = y2 / (8 * vm) /\ 0 <= y1 < h).
      { destruct Cy as [->|[V2 ->]].
        - exists row. split; [exact Rw|]. split; [clear; lia|]. split; [exact YS|exact Y1].
        - destruct (YN V2) as [j [J1 [J2 J3]]]. exists j. split; [exact J1|]. split; [exact J2|]. split; [exact J3|]. rewrite V2 in Y1. pose proof (NB (h - 1) row (proj1 Rw) ltac:(clear - Y1; lia)) as N1. clear - N1. lia. }
      assert (Kx : exists x2, 0 <= x2 < samples /\ x - 1 <= x2 <= x + 1 /\ x1 / (8 * cs_h c) = x2 / (8 * hm) /\ 0 <= x1 < w).
      { destruct Cx as [->|[V2 ->]].
        - exists x. split; [exact Hx|]. split; [clear; lia|]. split; [exact XS|exact X3].
        - destruct (XN V2) as [j [J1 [J2 J3]]]. exists j. split; [exact J1|]. split; [exact J2|]. split; [exact J3|]. rewrite V2 in X3. pose proof (NB (w - 1) x (proj1 Hx) ltac:(clear - X3; lia)) as N1. clear - N1. lia. }
      destruct Ky as [y2 [K1 [K2 [K3 K4]]]]. destruct Kx as [x2 [L1 [L2 [L3 L4]]]].
      apply (sample_pixel y1 x1 y2 x2 (S y2 x2 K1 L1 K2 L2) K3 L3); [rewrite PR; clear - K4 X2; lia|rewrite PS; clear - L4 X1; lia]. }
    clear - G. clearbody hr vr w h. unfold shown, double_width, double_height, double_both.
    destruct ((hr =? 1) && (vr =? 1)) eqn:K1.
    { assert (hr = 1 /\ vr = 1) as [Kh Kv] by (clear - K1; lia). subst. apply G; left; rewrite Z.div_1_r; reflexivity. }
    destruct ((hr =? 2) && (vr =? 1)) eqn:K2.
    { assert (hr = 2 /\ vr = 1) as [Kh Kv] by (clear - K2; lia). subst. rewrite !G; auto; left; rewrite Z.div_1_r; reflexivity. }
    destruct ((hr =? 1) && (vr =? 2)) eqn:K3.
    { assert (hr = 1 /\ vr = 2) as [Kh Kv] by (clear - K3; lia). subst. rewrite !G; auto; left; rewrite Z.div_1_r; reflexivity. }
    destruct ((hr =? 2) && (vr =? 2)) eqn:K4.
    { assert (hr = 2 /\ vr = 2) as [Kh Kv] by (clear - K4; lia). subst. rewrite !G; auto. }
    apply G; left; reflexivity.
  Qed.
  Lemma drawn_local_full : full_component cs c -> same y x -> comp_drawn lines samples cs c p' row x = comp_drawn lines samples cs c p row x.
  Proof using HO Ec Hy Hx P P' RV.
    intros F S. destruct local_facts as [Fh [Fv [Er [Rw [Rn Rm]]]]]. destruct (drawn_full rayon lines samples cs c y x HO (nth_error_In _ _ Ec) Hy Hx F) as [R1 [R2 R3]]. fold vm row in R1, R3. rewrite !R3.
    destruct F as [F1 F2]. fold hm in F1. fold vm in F2. apply (sample_pixel row x y x S); [rewrite F2; exact Rm|rewrite F1; reflexivity|exact R1|exact R2].
  Qed.
End Drawn.

Section Files.
  Variables (dbg rayon : bool) (segs segs' : list (nat * hseg)) (h h' : frame_header) (fill1 fill2 fill1' fill2' : nat) (ss ss' : list scan_comp) (ts ts' : list tables)
    (qs : list (list Z)) (ms ms' : list mcu) (data data' : list Z) (post post' : list (nat * hseg)) (fill3 fill3' : nat) (img : list Z).
  Let cs := fh_comps h.
  Let lines := fh_lines h.
  Let samples := fh_samples h.
  Hypothesis (En : encodes segs h ss ts qs ms data) (En' : encodes segs' h' ss' ts' qs ms' data') (PO : post_ok post) (PO' : post_ok post').
  Hypothesis (El : fh_lines h' = lines) (Es : fh_samples h' = samples) (L0 : 0 < lines) (S0 : 0 < samples).
  Hypothesis Ef : map (fun c => (cs_h c, cs_v c)) (fh_comps h') = map (fun c => (cs_h c, cs_v c)) cs.
  Hypothesis Et : last_transform (segs' ++ post') = last_transform (segs ++ post).
  Let file := file_bytes segs fill1 fill2 (mkSpS ss 0 63 0 0) data post fill3.
  Let file' := file_bytes segs' fill1' fill2' (mkSpS ss' 0 63 0 0) data' post' fill3'.
  Hypothesis (B : bytes file) (B' : bytes file') (D : decode_fresh dbg rayon file = Ok img).
  Let vm := largest (map cs_v cs).
  Lemma near_image : exists img', decode_fresh dbg rayon file' = Ok img' /\
    forall y x, 0 <= y < lines -> 0 <= x < samples ->
      (let row := shown_row rayon vm y in forall y2 x2, 0 <= y2 < lines -> 0 <= x2 < samples -> row - 1 <= y2 <= row + 1 -> x - 1 <= x2 <= x + 1 -> mcu_of samples cs ms' y2 x2 = mcu_of samples cs ms y2 x2) ->
      pixel (lenZ cs) samples y x img' = pixel (lenZ cs) samples y x img.
  Proof using En En' PO PO' El Es L0 S0 Ef Et B B' D.
    destruct (two_files dbg rayon segs segs' h h' fill1 fill2 fill1' fill2' ss ss' ts ts' qs qs ms ms' data data' post post' fill3 fill3' img En En' PO PO' El Es L0 S0 Ef Et B B' D) as [img' [D' R]].
    exists img'. split; [exact D'|]. intros y x Hy Hx S. destruct (R y x Hy Hx) as [vs [vs' [E1 [E2 [L1 [L2 K]]]]]]. fold cs lines samples in E1, E2, L1, L2, K. rewrite E1, E2. f_equal.
    apply nth_ext with (d := 0) (d' := 0); [rewrite L1, L2; reflexivity|]. intros k Hk. rewrite L2 in Hk.
    destruct (nth_error cs k) as [c|] eqn:Ec; [|apply nth_error_None in Ec; lia]. destruct (K k c Ec) as [q [q' [p [p' [Eq [Eq' [A [P [P' [V V']]]]]]]]]]. assert (q' = q) by congruence. subst q'. rewrite V, V'.
    assert (HO : header_ok lines samples cs) by exact (files_header segs h ss ts qs ms data En).
    exact (drawn_near rayon lines samples cs ms ms' k c q p p' y x HO Ec A Hy Hx P P' S).
  Qed.

  Hypothesis RV : rayon = false \/ vm = 1.
  Lemma local_image : exists img', decode_fresh dbg rayon file' = Ok img' /\
    forall y x, 0 <= y < lines -> 0 <= x < samples ->
      full_resolution cs /\ mcu_of samples cs ms' y x = mcu_of samples cs ms y x \/
      (forall y2 x2, 0 <= y2 < lines -> 0 <= x2 < samples -> y - vm <= y2 <= y -> x - 1 <= x2 <= x + 1 -> mcu_of samples cs ms' y2 x2 = mcu_of samples cs ms y2 x2) ->
      pixel (lenZ cs) samples y x img' = pixel (lenZ cs) samples y x img.
  Proof using En En' PO PO' El Es L0 S0 Ef Et B B' D RV.
    destruct (two_files dbg rayon segs segs' h h' fill1 fill2 fill1' fill2' ss ss' ts ts' qs qs ms ms' data data' post post' fill3 fill3' img En En' PO PO' El Es L0 S0 Ef Et B B' D) as [img' [D' R]].
    exists img'. split; [exact D'|]. intros y x Hy Hx S. destruct (R y x Hy Hx) as [vs [vs' [E1 [E2 [L1 [L2 K]]]]]]. fold cs lines samples in E1, E2, L1, L2, K. rewrite E1, E2. f_equal.
    apply nth_ext with (d := 0) (d' := 0); [rewrite L1, L2; reflexivity|]. intros k Hk. rewrite L2 in Hk.
    destruct (nth_error cs k) as [c|] eqn:Ec; [|apply nth_error_None in Ec; lia]. destruct (K k c Ec) as [q [q' [p [p' [Eq [Eq' [A [P [P' [V V']]]]]]]]]]. assert (q' = q) by congruence. subst q'. rewrite V, V'.
    assert (HO : header_ok lines samples cs) by exact (files_header segs h ss ts qs ms data En).
    destruct S as [[F S]|S].
    - exact (drawn_local_full rayon lines samples cs ms ms' k c q p p' y x HO Ec Hy Hx P P' RV ltac:(unfold full_resolution in F; rewrite Forall_forall in F; exact (F c (nth_error_In _ _ Ec))) S).
    - exact (drawn_local rayon lines samples cs ms ms' k c q p p' y x HO Ec A Hy Hx P P' RV S).
  Qed.
End Files.
