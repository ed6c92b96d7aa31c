(** From rows to images. *)
From Verif Require Import Base F32 Idct Color Types Upsampler Tactics SpecUpsample SpecFrame SpecSegments GeomP ParsersP RowP UpsampleP.

(** ** The upsampler of one component *)
Record geom := mkGeom { g_width : Z; g_height : Z; g_hm : Z; g_vm : Z; g_h : Z; g_v : Z }.
Definition g_stride (g : geom) : Z := 8 * (mcus (g_width g) (g_hm g) * g_h g).
Definition g_rows (g : geom) : Z := 8 * (mcus (g_height g) (g_vm g) * g_v g).
Definition g_w (g : geom) : Z := extent (g_width g) (g_h g) (g_hm g).
Definition g_ht (g : geom) : Z := extent (g_height g) (g_v g) (g_vm g).
Definition geom_ok (g : geom) : Prop :=
  0 < g_width g < 65536 /\ 0 < g_height g < 65536 /\ 1 <= g_h g <= g_hm g /\ g_hm g <= 4 /\ 1 <= g_v g <= g_vm g /\ g_vm g <= 4.
Definition plane_of (g : geom) (p : list Z) : Prop := ubytes p /\ lenZ p = g_stride g * g_rows g.

Lemma extent_le : forall len f fm, 0 < len -> 1 <= f <= fm -> 0 < extent len f fm <= 8 * (mcus len fm * f).
Proof.
  intros len f fm Hl Hf. unfold extent, mcus.
  pose proof (ceil_div_bounds (len * f) fm ltac:(lia)) as [A1 A2]. pose proof (ceil_div_bounds len (8 * fm) ltac:(lia)) as [B1 B2].
  set (e := ceil_div (len * f) fm) in *. set (m := ceil_div len (8 * fm)) in *. clearbody e m. split; [nia|].
  assert (len * f <= 8 * (m * f) * fm) by nia. nia.
Qed.

Lemma geom_fits : forall g p, geom_ok g -> plane_of g p -> plane_fits p (g_stride g) (g_w g) (g_ht g).
Proof.
  intros g p (W & H & Ah & Bh & Av & Bv) [B L]. unfold lenZ in L.
  pose proof (extent_le (g_width g) (g_h g) (g_hm g) ltac:(lia) ltac:(lia)) as E1. pose proof (extent_le (g_height g) (g_v g) (g_vm g) ltac:(lia) ltac:(lia)) as E2.
  fold (g_w g) (g_stride g) in E1. fold (g_ht g) (g_rows g) in E2.
  assert (g_ht g <= 65535) by (unfold g_ht, extent; apply ceil_div_le; nia).
  unfold plane_fits. repeat split; auto; try lia. nia.
Qed.

(** Twice or [k] times the extent covers the axis. *)
Lemma extent_covers : forall len f fm, 0 < len -> 1 <= f <= fm -> fm mod f = 0 -> len <= fm / f * extent len f fm.
Proof.
  intros len f fm Hl Hf D. unfold extent. pose proof (ceil_div_bounds (len * f) fm ltac:(lia)) as [A1 A2].
  set (e := ceil_div (len * f) fm) in *. clearbody e. assert (E : fm = f * (fm / f)) by (apply Z_div_exact_full_2; lia).
  set (k := fm / f) in *. clearbody k. subst fm. nia.
Qed.
Lemma extent_tight : forall len f fm, 0 < len -> 1 <= f <= fm -> fm mod f = 0 -> fm / f * (extent len f fm - 1) < len.
Proof.
  intros len f fm Hl Hf D. unfold extent. pose proof (ceil_div_bounds (len * f) fm ltac:(lia)) as [A1 A2].
  set (e := ceil_div (len * f) fm) in *. clearbody e. assert (E : fm = f * (fm / f)) by (apply Z_div_exact_full_2; lia).
  set (k := fm / f) in *. clearbody k. subst fm. nia.
Qed.
Lemma extent_one : forall f fm, 1 <= f <= fm -> extent 1 f fm = 1.
Proof.
  intros f fm Hf. unfold extent. pose proof (ceil_div_bounds (1 * f) fm ltac:(lia)) as [A1 A2].
  set (e := ceil_div (1 * f) fm) in *. clearbody e. nia.
Qed.
Lemma extent_full : forall len fm, 0 < len -> 1 <= fm -> extent len fm fm = len.
Proof. intros. pose proof (extent_covers len fm fm ltac:(lia) ltac:(lia) (Z_mod_same_full fm)). pose proof (extent_tight len fm fm ltac:(lia) ltac:(lia) (Z_mod_same_full fm)). rewrite Z_div_same_full in * by lia. lia. Qed.

Definition g_hr (g : geom) : Z := ratio (g_width g) (g_h g) (g_hm g).
Definition g_vr (g : geom) : Z := ratio (g_height g) (g_v g) (g_vm g).
Definition g_kind (g : geom) : upsample :=
  if (g_hr g =? 1) && (g_vr g =? 1) then UH1V1
  else if (g_hr g =? 2) && (g_vr g =? 1) then UH2V1
  else if (g_hr g =? 1) && (g_vr g =? 2) then UH1V2
  else if (g_hr g =? 2) && (g_vr g =? 2) then UH2V2
  else UGeneric (g_hm g / g_h g) (g_vm g / g_v g).
Definition strict (g : geom) : Prop := g_hm g mod g_h g = 0 /\ g_vm g mod g_v g = 0.
Definition integral (g : geom) : Prop :=
  (g_width g = 1 \/ g_hm g mod g_h g = 0) /\ (g_height g = 1 \/ g_vm g mod g_v g = 0) /\
  (2 < g_hr g \/ 2 < g_vr g -> strict g).
Lemma strict_integral : forall g, strict g -> integral g.
Proof. intros g S. pose proof S as [A B]. repeat split; auto; tauto. Qed.

Lemma ratio_pos : forall len f fm, 1 <= f <= fm -> 1 <= ratio len f fm.
Proof. intros. unfold ratio. destruct (len =? 1); [lia|]. apply Z.div_le_lower_bound; lia. Qed.

Lemma quot_eq : forall h hm k, 1 <= h <= hm -> hm mod h = 0 -> (h * k =? hm) = (hm / h =? k).
Proof.
  intros h hm k H M. assert (Eh : hm = h * (hm / h)) by (apply Z_div_exact_full_2; lia).
  set (a := hm / h) in *. clearbody a. subst hm. apply Bool.eq_iff_eq_true. rewrite !Z.eqb_eq. nia.
Qed.

Lemma quot_neq : forall h hm k, 1 <= h <= hm -> hm mod h <> 0 -> (h * k =? hm) = false.
Proof.
  intros h hm k H M. destruct (Z.eqb_spec (h * k) hm) as [E|]; auto. exfalso. apply M. subst hm. rewrite Z.mul_comm. apply Z.mod_mul. lia.
Qed.

Lemma choose_cases : forall g, geom_ok g ->
  (integral g -> choose_upsampler (g_h g) (g_v g) (g_hm g) (g_vm g) (mkDims (g_width g) (g_height g)) = Ok (g_kind g)) /\
  (~ integral g -> choose_upsampler (g_h g) (g_v g) (g_hm g) (g_vm g) (mkDims (g_width g) (g_height g)) = Fail EUnsupported).
Proof.
  intros [W H hm vm h v] (A & B & C & D & E & F). unfold integral, strict, g_kind, g_hr, g_vr, ratio, choose_upsampler.
  cbn [g_width g_height g_hm g_vm g_h g_v dim_w dim_h] in *.
  assert (Qh : 1 <= hm / h) by (apply Z.div_le_lower_bound; lia). assert (Qv : 1 <= vm / v) by (apply Z.div_le_lower_bound; lia).
  replace (h =? hm) with (h * 1 =? hm) by (rewrite Z.mul_1_r; reflexivity).
  replace (v =? vm) with (v * 1 =? vm) by (rewrite Z.mul_1_r; reflexivity).
  destruct (Z.eq_dec (hm mod h) 0) as [Mh|Mh]; [rewrite !(quot_eq h hm) by auto | rewrite !(quot_neq h hm) by auto];
    (destruct (Z.eq_dec (vm mod v) 0) as [Mv|Mv]; [rewrite !(quot_eq v vm) by auto | rewrite !(quot_neq v vm) by auto]);
    try rewrite Mh; try rewrite Mv; set (a := hm / h) in *; set (b := vm / v) in *; clearbody a b;
    repeat match goal with |- context [hm mod h =? 0] => replace (hm mod h =? 0) with false by lia end;
    repeat match goal with |- context [vm mod v =? 0] => replace (vm mod v =? 0) with false by lia end;
    destruct (Z.eqb_spec W 1), (Z.eqb_spec H 1);
    destruct (Z.eqb_spec a 1), (Z.eqb_spec a 2), (Z.eqb_spec b 1), (Z.eqb_spec b 2); try (exfalso; lia);
    cbn [Z.eqb Pos.eqb andb orb negb]; split; intros; try reflexivity; exfalso; lia.
Qed.

(** What the upsampled row needs beyond integral ratios: H2V1 reads and writes [width] samples
    of the plane from the start of the row, the generic one fills whole groups only. *)
Definition row_fits (g : geom) (row : Z) : Prop :=
  match g_kind g with
  | UH2V1 => g_width g mod 2 = 0 /\ row * g_stride g + g_width g <= g_stride g * g_rows g
  | UGeneric hf _ => g_width g mod hf = 0
  | _ => True
  end.
Definition g_shown (g : geom) (p : list Z) (row x : Z) : Z := shown (g_hr g) (g_vr g) p (g_stride g) (g_w g) (g_ht g) row x.
Definition g_up (g : geom) : up_component := mkUp (g_kind g) (mkDims (g_w g) (g_ht g)) (g_stride g).

Lemma map_ext_zrange : forall (f g : Z -> Z) n, (forall x, 0 <= x < n -> f x = g x) -> map f (zrange n) = map g (zrange n).
Proof. intros f g n H. apply map_ext_in. intros x Hx. apply H. apply zrange_in in Hx. auto. Qed.

Lemma geom_cover : forall g, geom_ok g -> integral g ->
  g_width g <= g_hr g * g_w g /\ g_hr g * (g_w g - 1) < g_width g /\ g_height g <= g_vr g * g_ht g /\
  0 < g_w g <= g_stride g /\ 0 < g_ht g <= g_rows g /\ 1 <= g_hr g /\ 1 <= g_vr g.
Proof.
  intros g (W & H & Ah & Bh & Av & Bv) (I1 & I2 & _).
  pose proof (extent_le (g_width g) (g_h g) (g_hm g) ltac:(lia) ltac:(lia)) as Xw. fold (g_w g) (g_stride g) in Xw.
  pose proof (extent_le (g_height g) (g_v g) (g_vm g) ltac:(lia) ltac:(lia)) as Xh. fold (g_ht g) (g_rows g) in Xh.
  pose proof (ratio_pos (g_width g) (g_h g) (g_hm g) Ah) as Rh. fold (g_hr g) in Rh.
  pose proof (ratio_pos (g_height g) (g_v g) (g_vm g) Av) as Rv. fold (g_vr g) in Rv.
  repeat split; auto; try lia.
  - unfold g_hr, ratio. destruct (Z.eqb_spec (g_width g) 1); [lia|]. apply extent_covers; auto; lia.
  - unfold g_hr, ratio. destruct (Z.eqb_spec (g_width g) 1) as [E1|]; [|apply extent_tight; auto; lia].
    unfold g_w. rewrite E1, extent_one by lia. lia.
  - unfold g_vr, ratio. destruct (Z.eqb_spec (g_height g) 1); [lia|]. apply extent_covers; auto; lia.
Qed.

Lemma generic_ratio : forall g x row, geom_ok g -> 0 <= x < g_width g -> 0 <= row < g_height g ->
  x / (g_hm g / g_h g) = x / g_hr g /\ row / (g_vm g / g_v g) = row / g_vr g.
Proof.
  intros g x row (W & H & Ah & Bh & Av & Bv) Hx R.
  assert (Hhr : 1 <= g_hm g / g_h g) by (apply Z.div_le_lower_bound; lia).
  assert (Hvr : 1 <= g_vm g / g_v g) by (apply Z.div_le_lower_bound; lia). split.
  - unfold g_hr, ratio. destruct (Z.eqb_spec (g_width g) 1) as [E|]; [|auto]. replace x with 0 by lia. rewrite !Z.div_0_l by lia. reflexivity.
  - unfold g_vr, ratio. destruct (Z.eqb_spec (g_height g) 1) as [E|]; [|auto]. replace row with 0 by lia. rewrite !Z.div_0_l by lia. reflexivity.
Qed.

Lemma nth_resize : forall buf n x, (x < Z.to_nat n)%nat -> nth x (resize buf n) 0 = nth x buf 0.
Proof.
  intros buf n x H. unfold resize. destruct (le_lt_dec (length buf) x).
  - rewrite (nth_overflow buf) by auto. rewrite app_nth2 by (rewrite firstn_length; lia). apply nth_repeat.
  - rewrite app_nth1 by (rewrite firstn_length; lia). apply nth_firstn_Z. lia.
Qed.

(** The row for the generic upsampler, with the untouched columns at the end. *)
Lemma comp_row_generic : forall dbg g p row buf hf vf, geom_ok g -> integral g -> plane_of g p -> 0 <= row < g_height g -> g_kind g = UGeneric hf vf ->
  let l := map (fun x => if x <? hf * (g_width g / hf) then g_shown g p row x else nth (Z.to_nat x) buf 0) (zrange (g_width g)) in
  1 <= hf /\ upsample_row dbg (g_up g) (map Some p) row (g_width g) buf = Ok (map Some l, l).
Proof.
  intros dbg g p row buf hf vf G I P R K l. pose proof (geom_fits g p G P) as F.
  destruct (geom_cover g G I) as (CW & TW & CH & Xw & Xh & Rh & Rv). pose proof G as (W & H & Ah & Bh & Av & Bv).
  assert (Hhr : 1 <= g_hm g / g_h g) by (apply Z.div_le_lower_bound; lia).
  assert (Hvr : 1 <= g_vm g / g_v g) by (apply Z.div_le_lower_bound; lia).
  assert (KK : hf = g_hm g / g_h g /\ vf = g_vm g / g_v g /\ (2 < g_hr g \/ 2 < g_vr g) /\ forall p row x, g_shown g p row x = px p (g_stride g) (row / g_vr g) (x / g_hr g)).
  { unfold g_kind, g_shown, shown in *.
    destruct ((g_hr g =? 1) && (g_vr g =? 1)) eqn:K1; [discriminate|]. destruct ((g_hr g =? 2) && (g_vr g =? 1)) eqn:K2; [discriminate|].
    destruct ((g_hr g =? 1) && (g_vr g =? 2)) eqn:K3; [discriminate|]. destruct ((g_hr g =? 2) && (g_vr g =? 2)) eqn:K4; [discriminate|].
    inv K. repeat split; auto. lia. }
  destruct KK as (Eh & Ev & Big & S). destruct I as (_ & _ & I3). destruct (I3 Big) as [M1 M2].
  assert (Cw : g_width g <= hf * g_w g).
  { rewrite Eh. apply extent_covers; auto; lia. }
  assert (Ch : g_height g <= vf * g_ht g).
  { rewrite Ev. apply extent_covers; auto; lia. }
  split; [lia|]. unfold upsample_row, g_up. cbn [up_kind up_size up_stride]. rewrite K.
  rewrite generic_row; auto; try lia. cbn [bind]. 
  assert (E : map (fun x => if x <? hf * (g_width g / hf) then px p (g_stride g) (row / vf) (x / hf) else nth (Z.to_nat x) (resize buf (g_width g)) 0) (zrange (g_width g)) = l).
  { apply map_ext_zrange. intros x Hx. destruct (generic_ratio g x row) as [E1 E2]; auto.
    rewrite S, Eh, Ev, E1, E2. destruct (_ <? _); auto. apply nth_resize. clear - Hx. lia. }
  rewrite E. reflexivity.
Qed.

Lemma kind_ratios : forall g k, g_kind g = k ->
  match k with
  | UH1V1 => g_hr g = 1 /\ g_vr g = 1
  | UH2V1 => g_hr g = 2 /\ g_vr g = 1
  | UH1V2 => g_hr g = 1 /\ g_vr g = 2
  | UH2V2 => g_hr g = 2 /\ g_vr g = 2
  | UGeneric _ _ => True
  end.
Proof.
  intros g k <-. unfold g_kind.
  destruct ((g_hr g =? 1) && (g_vr g =? 1)) eqn:K1; [lia|]. destruct ((g_hr g =? 2) && (g_vr g =? 1)) eqn:K2; [lia|].
  destruct ((g_hr g =? 1) && (g_vr g =? 2)) eqn:K3; [lia|]. destruct ((g_hr g =? 2) && (g_vr g =? 2)) eqn:K4; [lia|exact I].
Qed.

Definition g_len (g : geom) : Z := match g_kind g with UH2V2 => g_w g * 2 | _ => g_width g end.

Lemma comp_row : forall dbg g p row buf, geom_ok g -> integral g -> plane_of g p -> 0 <= row < g_height g -> row_fits g row ->
  exists buf', g_width g <= g_len g /\
    upsample_row dbg (g_up g) (map Some p) row (g_width g) buf = Ok (map Some (map (g_shown g p row) (zrange (g_len g))), buf').
Proof.
  intros dbg g p row buf G I P R RF. unfold g_len. pose proof (geom_fits g p G P) as F. pose proof P as [Bp Lp].
  destruct (geom_cover g G I) as (CW & TW & CH & Xw & Xh & Rh & Rv). pose proof G as (W & H & Ah & Bh & Av & Bv).
  destruct (g_kind g) as [| | | |hf vf] eqn:EK.
  5:{ destruct (comp_row_generic dbg g p row buf hf vf) as [Hf E]; auto. rewrite E.
    eexists. split; [lia|]. do 3 f_equal. apply map_ext_zrange. intros x Hx.
    unfold row_fits in RF. rewrite EK in RF.
    assert (EW : hf * (g_width g / hf) = g_width g) by (symmetry; apply Z_div_exact_full_2; lia).
    rewrite EW. replace (x <? g_width g) with true by lia. reflexivity. }
  all: apply kind_ratios in EK as [HR VR]; auto; unfold row_fits, upsample_row, g_up, g_shown, shown, g_kind in *;
    rewrite HR, VR in *; cbn [Z.eqb Pos.eqb andb up_kind up_size up_stride] in *.
  - exists buf. split; [lia|].
    rewrite (h1v1_row p _ (g_w g) (g_ht g)); auto; lia.
  - assert (E2 : g_width g = 2 * g_w g) by lia. destruct RF as [_ RF].
    exists (map (double_width p (g_stride g) (g_w g) row) (zrange (2 * g_w g))). split; [lia|].
    rewrite E2 in RF |- *. rewrite h2v1_height, h2v1_row; auto; try lia. nia.
  - eexists. split; [lia|]. rewrite h1v2_row; auto; try lia. reflexivity.
  - eexists. split; [lia|]. rewrite h2v2_row; auto; try lia. reflexivity.
Qed.

(** When the row does not fit, doubling the width panics. *)
Lemma comp_row_panic : forall dbg g p row buf, geom_ok g -> integral g -> plane_of g p -> 0 <= row < g_height g ->
  g_kind g = UH2V1 -> ~ row_fits g row ->
  upsample_row dbg (g_up g) (map Some p) row (g_width g) buf = Panic PIndex.
Proof.
  intros dbg g p row buf G I P R EK RF. pose proof P as [Bp Lp].
  destruct (geom_cover g G I) as (CW & TW & CH & Xw & Xh & Rh & Rv). pose proof G as (W & H & Ah & Bh & Av & Bv).
  unfold row_fits in RF. rewrite EK in RF. unfold upsample_row, g_up. rewrite EK. cbn [up_kind up_size up_stride].
  apply kind_ratios in EK as [HR VR].
  assert (W1 : g_width g <> 1) by (unfold g_hr, ratio in HR; destruct (Z.eqb_spec (g_width g) 1); lia).
  assert (S0 : 0 <= row * g_stride g) by nia.
  destruct (Z_lt_le_dec (g_stride g * g_rows g) (row * g_stride g + g_width g)) as [D|D].
  - rewrite h2v1_past_end; auto. lia.
  - rewrite HR in *. rewrite h2v1_height, h2v1_narrow; auto; lia.
Qed.

(** ** All components *)
Definition comp_geom (width height hm vm : Z) (c : comp_spec) : geom := mkGeom width height hm vm (cs_h c) (cs_v c).

Lemma rows_ok : forall dbg gs ps bufs row width,
  Forall geom_ok gs -> Forall integral gs -> Forall (fun g => g_width g = width /\ 0 <= row < g_height g /\ row_fits g row) gs ->
  Forall2 plane_of gs ps -> (length gs <= length bufs)%nat ->
  exists ns bufs', length bufs' = length bufs /\ Forall (fun n => width <= n) ns /\ length ns = length gs /\
    upsample_rows dbg (map g_up gs) (map (map Some) ps) bufs row width =
      Ok (map (fun '(g, p, n) => map Some (map (g_shown g p row) (zrange n))) (combine (combine gs ps) ns), bufs').
Proof.
  intros dbg. induction gs as [|g gs IH]; intros ps bufs row width G I R P L.
  - inv P. exists [], bufs. repeat split; auto.
  - inv P. rename y into p. rename l' into ps. destruct bufs as [|b bufs]; [cbn in L; lia|]. 
    pose proof (Forall_inv_tail G). pose proof (Forall_inv_tail I). pose proof (Forall_inv_tail R).
    apply Forall_inv in G. apply Forall_inv in I. apply Forall_inv in R. destruct R as (E & R & RF).
    destruct (comp_row dbg g p row b) as [b' [Hn E1]]; auto. set (n := g_len g) in *.
    destruct (IH ps bufs row width) as [ns [bufs' [L1 [F1 [L2 E2]]]]]; auto; [cbn in L; lia|].
    exists (n :: ns), (b' :: bufs'). cbn [length map upsample_rows combine]. rewrite <- E in *. rewrite E1. cbn [bind]. rewrite E2. cbn [bind].
    repeat split; auto; lia.
Qed.
