(** Outcomes that are neither undefined behaviour nor exhausted fuel, and their application
    to the output image. *)
From Verif Require Import Base Tactics SpecBits SpecFrame SpecSegments SpecColor Idct Color ColorP Types Upsampler Parsers ParsersP Decode ImageP.

Definition post {A} (Q : A -> Prop) (o : out A) : Prop :=
  match o with
  | Ok a => Q a
  | Fail _ => True
  | Panic PFuel => False
  | Panic _ => True
  | UB => False
  end.

Lemma post_bind : forall A B (Q : A -> Prop) (R : B -> Prop) (x : out A) (f : A -> out B),
  post Q x -> (forall a, Q a -> post R (f a)) -> post R (bind x f).
Proof. intros A B Q R [a|e|[]|] f H K; cbn in *; auto. Qed.
Lemma post_weaken : forall A (Q R : A -> Prop) (x : out A), post Q x -> (forall a, Q a -> R a) -> post R x.
Proof. intros A Q R [a|e|[]|] H K; cbn in *; auto. Qed.
Lemma post_true : forall A (Q : A -> Prop) (x : out A), post Q x -> post (fun _ => True) x.
Proof. intros. eapply post_weaken; eauto. Qed.
Lemma post_safe : forall A (x : out A), safe x -> post (fun _ => True) x.
Proof. intros A [] H; cbn in *; auto; contradiction. Qed.

Lemma post_assert : forall b p, p <> PFuel -> post (fun _ => True) (assert_ b p).
Proof. intros [] [] H; cbn; auto. Qed.
Lemma post_debug : forall dbg b, post (fun _ => True) (debug_assert dbg b).
Proof. intros [] []; cbn; auto. Qed.
Lemma post_usub : forall dbg n a b, post (fun _ => True) (usub dbg n a b).
Proof. intros dbg n a b. unfold usub. destruct (a <? b), dbg; cbn; auto. Qed.
Lemma post_index : forall A (P : A -> Prop) xs i, Forall P xs -> post P (index xs i).
Proof.
  intros A P xs i F. unfold index. destruct (i <? 0); [exact I|]. destruct (nth_error xs (Z.to_nat i)) eqn:E; [|exact I].
  cbn. rewrite Forall_forall in F. apply F. eapply nth_error_In; eauto.
Qed.
Lemma post_store : forall A (P : A -> Prop) xs i v, Forall P xs -> P v -> post (fun ys => Forall P ys /\ length ys = length xs) (store xs i v).
Proof.
  intros A P xs i v F V. unfold store. destruct (_ && _); cbn; auto. split; [apply Forall_upd; auto|apply upd_length].
Qed.
Lemma Forall_firstn : forall A (P : A -> Prop) n l, Forall P l -> Forall P (firstn n l).
Proof. intros A P n l H. rewrite <- (firstn_skipn n l) in H. apply Forall_app in H. apply H. Qed.
Lemma Forall_skipn : forall A (P : A -> Prop) n l, Forall P l -> Forall P (skipn n l).
Proof. intros A P n l H. rewrite <- (firstn_skipn n l) in H. apply Forall_app in H. apply H. Qed.
Lemma post_slice : forall A (P : A -> Prop) xs a b, Forall P xs -> post (Forall P) (slice xs a b).
Proof. intros A P xs a b F. unfold slice. destruct (_ && _); cbn; auto. apply Forall_firstn, Forall_skipn; auto. Qed.
Lemma post_slice_from : forall A (P : A -> Prop) xs a, Forall P xs -> post (Forall P) (slice_from xs a).
Proof. intros. apply post_slice. auto. Qed.

(** A completely written plane. *)
Definition written (x : option Z) : Prop := exists v, x = Some v /\ is_byte v.
Definition full (p : plane) : Prop := Forall written p.

Lemma post_read : forall x, written x -> post is_byte (read x).
Proof. intros x [v [-> B]]. exact B. Qed.
Lemma post_rd : forall p i, full p -> post is_byte (rd p i).
Proof. intros p i F. unfold rd. eapply post_bind; [apply post_index; exact F|]. apply post_read. Qed.
Lemma wrap8_byte : forall x, is_byte (wrap 8 x).
Proof. intros. unfold is_byte, wrap. change (2 ^ 8) with 256. apply Z.mod_pos_bound. lia. Qed.
Lemma resize_bytes : forall b n, bytes b -> bytes (resize b n).
Proof.
  intros b n B. unfold resize. apply Forall_app. split; [apply Forall_firstn; auto|].
  apply Forall_forall. intros x H. apply repeat_spec in H. subst. unfold is_byte. lia.
Qed.
Lemma full_some : forall b, bytes b -> full (map Some b).
Proof. intros b B. apply Forall_map. eapply Forall_impl; [|exact B]. intros a Ha. exists a. auto. Qed.

Ltac pb L := eapply post_bind; [apply L; auto|let x := fresh "x" in let Hx := fresh "Hx" in intros x Hx].

Lemma post_h2v1_loop : forall n outs input, (length outs <= n)%nat -> bytes outs -> full input -> post bytes (h2v1_loop outs input).
Proof.
  induction n as [|n IH]; intros outs input Ln Bo Fi.
  { destruct outs; [exact Bo|cbn in Ln; lia]. }
  destruct outs as [|o1 [|o2 outs]]; [exact Bo|exact Bo|].
  destruct input as [|a [|b [|c r]]]; [exact Bo|exact Bo|exact Bo|]. cbn [h2v1_loop].
  inv Fi. inversion H2; subst. inversion H4; subst. inv Bo. inv H8.
  pb post_read. pb post_read. pb post_read. eapply post_bind; [apply IH; auto; cbn in Ln; lia|]. intros l Hl.
  repeat constructor; auto using wrap8_byte; apply wrap8_byte.
Qed.
Lemma post_h1v2_loop : forall outs near far, bytes outs -> full near -> full far -> post bytes (h1v2_loop outs near far).
Proof.
  induction outs as [|o outs IH]; intros near far Bo Fn Ff; [exact Bo|].
  destruct near as [|n near]; [exact Bo|]. destruct far as [|f far]; [exact Bo|]. cbn [h1v2_loop]. inv Bo. inv Fn. inv Ff.
  pb post_read. pb post_read. eapply post_bind; [apply IH; auto|]. intros l Hl. constructor; auto. apply wrap8_byte.
Qed.
Lemma post_h2v2_loop : forall n outs near far t, (length outs <= n)%nat -> bytes outs -> full near -> full far ->
  post (fun '(l, _) => bytes l) (h2v2_loop outs near far t).
Proof.
  induction n as [|n IH]; intros outs near far t Ln Bo Fn Ff.
  { destruct outs; [exact Bo|cbn in Ln; lia]. }
  destruct outs as [|o1 [|o2 outs]]; [exact Bo|exact Bo|].
  destruct near as [|x near]; [exact Bo|]. destruct far as [|f far]; [exact Bo|]. cbn [h2v2_loop]. inv Bo. inv H2. inv Fn. inv Ff.
  pb post_read. pb post_read. eapply post_bind; [apply IH; auto; cbn in Ln; lia|]. intros [l last] Hl.
  repeat constructor; auto using wrap8_byte; apply wrap8_byte.
Qed.
Lemma post_generic_loop : forall hf input outs, bytes outs -> full input -> post bytes (generic_loop hf outs input).
Proof.
  intros hf. induction input as [|v r IH]; intros outs Bo Fi; cbn [generic_loop]; [exact Bo|]. inv Fi.
  destruct (lenZ outs <? hf); [exact Bo|]. pb post_read. eapply post_bind; [apply IH; auto; apply Forall_skipn; auto|]. intros l Hl.
  cbn. apply Forall_app. split; auto. apply Forall_forall. intros z Hz. apply repeat_spec in Hz. subst; auto.
Qed.

Ltac ps := repeat match goal with H : _ /\ _ |- _ => destruct H end.
Lemma post_h2v1 : forall dbg p size stride row w buf, full p -> bytes buf -> post bytes (up_h2v1 dbg p size stride row w buf).
Proof.
  intros dbg p size stride row w buf F B. unfold up_h2v1. pose proof (resize_bytes buf w B) as Bo.
  eapply post_bind; [apply post_slice; exact F|]. intros inp Fi. destruct (dim_w size =? 1).
  - pb post_rd. eapply post_bind; [apply (post_store _ is_byte); auto|]. intros o [Ho _].
    eapply post_weaken; [apply (post_store _ is_byte); auto|]. intros a [Ha _]; exact Ha.
  - pb post_rd. eapply post_bind; [apply (post_store _ is_byte); auto|]. intros o [Ho _].
    pb post_rd. eapply post_bind; [apply (post_store _ is_byte); auto; apply wrap8_byte|]. intros o2 [Ho2 _].
    eapply post_bind; [apply (post_slice_from _ is_byte); auto|]. intros t Ht.
    eapply post_bind; [apply (post_h2v1_loop (length t)); auto|]. intros t2 Ht2.
    eapply post_bind; [apply post_usub|]. intros i1 _. pb post_rd.
    eapply post_bind; [apply post_usub|]. intros i2 _. pb post_rd.
    eapply post_bind; [apply (post_store _ is_byte); [apply Forall_app; split; [apply (Forall_firstn _ is_byte 2); exact Ho2|exact Ht2]|apply wrap8_byte]|].
    intros o3 [Ho3 _]. eapply post_weaken; [apply (post_store _ is_byte); auto|]. intros a [Ha _]; exact Ha.
Qed.
Lemma post_h1v2 : forall dbg p size stride row w buf, full p -> bytes buf -> post bytes (up_h1v2 dbg p size stride row w buf).
Proof.
  intros dbg p size stride row w buf F B. unfold up_h1v2. pose proof (resize_bytes buf w B) as Bo.
  eapply post_bind; [apply post_usub|]. intros i1 _.
  eapply post_bind; [apply (post_slice_from _ written); exact F|]. intros n Hn.
  eapply post_bind; [apply (post_slice_from _ written); exact F|]. intros f Hf. apply post_h1v2_loop; auto.
Qed.
Lemma post_h2v2 : forall dbg p size stride row buf, full p -> bytes buf -> post bytes (up_h2v2 dbg p size stride row buf).
Proof.
  intros dbg p size stride row buf F B. unfold up_h2v2. pose proof (resize_bytes buf (dim_w size * 2) B) as Bo.
  eapply post_bind; [apply post_usub|]. intros i1 _.
  eapply post_bind; [apply (post_slice_from _ written); exact F|]. intros n Hn.
  eapply post_bind; [apply (post_slice_from _ written); exact F|]. intros f Hf. destruct (dim_w size =? 1).
  - pb post_rd. pb post_rd. eapply post_bind; [apply (post_store _ is_byte); auto; apply wrap8_byte|]. intros o [Ho _].
    eapply post_weaken; [apply (post_store _ is_byte); auto; apply wrap8_byte|]. intros a [Ha _]; exact Ha.
  - pb post_rd. pb post_rd. eapply post_bind; [apply (post_store _ is_byte); auto; apply wrap8_byte|]. intros o [Ho _].
    eapply post_bind; [apply (post_slice_from _ is_byte); exact Ho|]. intros t Ht.
    eapply post_bind; [apply (post_slice_from _ written); exact Hn|]. intros n2 Hn2.
    eapply post_bind; [apply (post_slice_from _ written); exact Hf|]. intros f2 Hf2.
    eapply post_bind; [apply (post_h2v2_loop (length t)); auto|]. intros [t2 last] Ht2.
    eapply post_bind; [apply post_usub|]. intros i2 _.
    eapply post_weaken; [apply (post_store _ is_byte)|].
    + apply Forall_app. split; [apply (Forall_firstn _ is_byte 1); exact Ho|exact Ht2].
    + apply wrap8_byte.
    + intros a [Ha _]; exact Ha.
Qed.
Lemma post_generic : forall hf vf p size stride row w buf, full p -> bytes buf -> post bytes (up_generic hf vf p size stride row w buf).
Proof.
  intros hf vf p size stride row w buf F B. unfold up_generic. pose proof (resize_bytes buf w B) as Bo.
  eapply post_bind; [apply post_slice; exact F|]. intros inp Fi. apply post_generic_loop; auto.
Qed.

Lemma post_row : forall dbg c p row w buf, full p -> bytes buf -> post (fun '(l, b) => full l /\ bytes b) (upsample_row dbg c p row w buf).
Proof.
  intros dbg c p row w buf F B. unfold upsample_row.
  assert (V : forall r : out (list Z), post bytes r -> post (fun '(l, b) => full l /\ bytes b) (let* b := r in Ok (map Some b, b))).
  { intros r Hr. eapply post_bind; [exact Hr|]. intros b Hb. split; auto using full_some. }
  destruct (up_kind c).
  - eapply post_bind; [apply (post_slice _ written); exact F|]. intros l Hl. split; auto.
  - apply V, post_h2v1; auto.
  - apply V, post_h1v2; auto.
  - apply V, post_h2v2; auto.
  - apply V, post_generic; auto.
Qed.
Lemma post_rows : forall dbg cs data bufs row w, Forall full data -> Forall bytes bufs ->
  post (fun '(ls, bs) => Forall full ls /\ Forall bytes bs) (upsample_rows dbg cs data bufs row w).
Proof.
  intros dbg. induction cs as [|c cs IH]; intros data bufs row w Fd Fb; cbn [upsample_rows]; [split; auto|].
  destruct data as [|p data]; [split; auto|]. destruct bufs as [|b bufs]; [split; auto|]. inv Fd. inv Fb.
  eapply post_bind; [apply post_row; auto|]. intros [l b'] [Hl Hb].
  eapply post_bind; [apply IH; auto|]. intros [ls bs] [Hls Hbs]. split; constructor; auto.
Qed.

Lemma post_line_ycbcr : forall dbg y data cb cr, bytes data -> full y -> full cb -> full cr ->
  post (fun l => bytes l /\ length l = length data) (line_ycbcr dbg data y cb cr).
Proof.
  intros dbg. induction y as [|y0 y IH]; intros data cb cr Bd Fy Fb Fr.
  { destruct data as [|? [|? [|? data]]]; cbn [line_ycbcr]; split; auto. }
  destruct data as [|d1 [|d2 [|d3 data]]]; try (split; auto; fail).
  destruct cb as [|b0 cb]; [split; auto|]. destruct cr as [|r0 cr]; [split; auto|]. cbn [line_ycbcr].
  inv Fy. inv Fb. inv Fr. inv Bd. inv H8. inv H10. pb post_read. pb post_read. pb post_read.
  rewrite ycbcr_pixel by auto. cbn [bind]. eapply post_bind; [apply IH; auto|]. intros l [Hl Ll]. cbn [post]. split; [|cbn [length]; lia].
  repeat apply Forall_cons; auto; apply sat_byte.
Qed.
Lemma post_line_ycck : forall dbg y data cb cr, bytes data -> full y -> full cb -> full cr ->
  post (fun l => bytes l /\ length l = length data) (line_ycck dbg data y cb cr).
Proof.
  intros dbg. induction y as [|y0 y IH]; intros data cb cr Bd Fy Fb Fr.
  { destruct data as [|? [|? [|? [|? data]]]]; cbn [line_ycck]; split; auto. }
  destruct data as [|d1 [|d2 [|d3 [|d4 data]]]]; try (split; auto; fail).
  destruct cb as [|b0 cb]; [split; auto|]. destruct cr as [|r0 cr]; [split; auto|]. cbn [line_ycck].
  inv Fy. inv Fb. inv Fr. inv Bd. inv H8. inv H10. inv H11. pb post_read. pb post_read. pb post_read.
  rewrite ycbcr_pixel by auto. cbn [bind]. eapply post_bind; [apply IH; auto|]. intros l [Hl Ll]. cbn [post]. split; [|cbn [length]; lia].
  repeat apply Forall_cons; auto; try apply sat_byte; unfold is_byte in *; lia.
Qed.
Lemma post_line_cmyk : forall c data m y k, bytes data -> full c -> full m -> full y -> full k ->
  post (fun l => bytes l /\ length l = length data) (line_cmyk data c m y k).
Proof.
  induction c as [|c0 c IH]; intros data m y k Bd Fc Fm Fy Fk.
  { destruct data as [|? [|? [|? [|? data]]]]; cbn [line_cmyk]; split; auto. }
  destruct data as [|d1 [|d2 [|d3 [|d4 data]]]]; try (split; auto; fail).
  destruct m as [|m0 m]; [split; auto|]. destruct y as [|y0 y]; [split; auto|]. destruct k as [|k0 k]; [split; auto|]. cbn [line_cmyk].
  inv Fc. inv Fm. inv Fy. inv Fk. inv Bd. inv H10. inv H12. inv H13. pb post_read. pb post_read. pb post_read. pb post_read.
  eapply post_bind; [apply IH; auto|]. intros l [Hl Ll]. cbn [post]. split; [|cbn [length]; lia].
  repeat apply Forall_cons; auto; unfold is_byte in *; lia.
Qed.
Lemma post_convert : forall dbg f data input, bytes data -> Forall full input ->
  post (fun l => bytes l /\ length l = length data) (color_convert dbg f data input).
Proof.
  intros dbg f data input B F. unfold color_convert. destruct f; [split; auto| | |].
  - destruct input as [|a [|b [|c [|? ?]]]]; try exact I. inv F. inv H2. inv H4. apply post_line_ycbcr; auto.
  - destruct input as [|a [|b [|c [|? ?]]]]; try exact I. inv F. inv H2. inv H4. apply post_line_ycck; auto.
  - destruct input as [|a [|b [|c [|e [|? ?]]]]]; try exact I. inv F. inv H2. inv H4. inv H5. apply post_line_cmyk; auto.
Qed.

Lemma repeat_bytes0 : forall n, bytes (repeat 0 n).
Proof. intros. apply Forall_forall. intros x H. apply repeat_spec in H. subst. unfold is_byte. lia. Qed.

Lemma post_lines : forall dbg f ups data w n groups bufs, Forall full data -> Forall bytes bufs ->
  post (fun ls => Forall (fun l => bytes l /\ length l = Z.to_nat (w * n)) ls /\
                  length ls = length (flat_map (fun '(_, k) => repeat tt (Z.to_nat k)) groups))
       (image_lines dbg f ups data w n bufs groups).
Proof.
  intros dbg f ups data w n. induction groups as [|[row k] groups IH]; intros bufs Fd Fb; cbn [image_lines]; [split; auto|].
  unfold upsample_and_interleave_row.
  eapply post_bind with (Q := fun '(ls, bs) => Forall full ls /\ Forall bytes bs).
  { eapply post_bind; [apply post_debug|]. intros _ _. apply post_rows; auto. }
  intros [colors bs] [Fc Fbs]. eapply post_bind; [apply post_convert; auto using repeat_bytes0|]. intros l [Bl Ll]. rewrite repeat_length in Ll.
  eapply post_bind; [apply IH; auto|]. intros ls [Fl Nl]. cbn. split.
  - apply Forall_app. split; auto. apply Forall_forall. intros x Hx. apply repeat_spec in Hx. subst; auto.
  - rewrite !app_length, !repeat_length. lia.
Qed.

(** The frames the decoder can hold. *)
Definition frame_good (fr : frame) : Prop :=
  exists m precision lines samples cs, fr = frame_of m precision lines samples cs /\ header_ok lines samples cs.

Lemma post_choose : forall h v hm vm size, post (fun _ => True) (choose_upsampler h v hm vm size).
Proof. intros. unfold choose_upsampler. repeat (match goal with |- context [if ?c then _ else _] => destruct c end; cbn; auto). Qed.
Lemma post_mapM : forall A B (f : A -> out B) l, (forall a, post (fun _ => True) (f a)) -> post (fun _ => True) (mapM f l).
Proof.
  induction l; intros H; cbn [mapM]; [exact I|]. eapply post_bind; [apply H|]. intros b _. eapply post_bind; [apply IHl; auto|]. intros ? _. exact I.
Qed.
Lemma post_max : forall l, post (fun _ => True) (max_unwrap l).
Proof. intros []; cbn; auto. Qed.

Lemma post_image : forall dbg rayon d, (forall fr, d_frame d = Some fr -> frame_good fr) -> Forall full (d_planes d) ->
  post (fun img => exists fr, d_frame d = Some fr /\ bytes img /\ lenZ img = f_lines fr * f_samples fr * lenZ (f_components fr))
       (upsample_image dbg rayon d).
Proof.
  intros dbg rayon d G F. unfold upsample_image. destruct (d_frame d) as [fr|] eqn:Fr; [|exact I].
  destruct (G fr eq_refl) as [m [pr [lines [samples [cs [E HO]]]]]].
  eapply post_bind with (Q := fun _ => True).
  { unfold choose_color_convert_func. destruct (_ =? 3); [destruct (d_color d) as [[]|]; exact I|].
    destruct (_ =? 4); [destruct (d_color d) as [[]|]; exact I|exact I]. }
  intros f _. eapply post_bind with (Q := fun _ => True).
  { unfold upsampler_new. eapply post_bind; [apply post_max|]. intros hm _. eapply post_bind; [apply post_max|]. intros vm _.
    apply post_mapM. intros c. eapply post_bind; [apply post_choose|]. intros u _. exact I. }
  intros ups _.
  assert (V : exists v, max_unwrap (map c_v (f_components fr)) = Ok v /\ 0 < v).
  { subst fr. destruct HO as [L S N Fw R X]. unfold frame_of. cbn [f_components]. rewrite map_map. cbn [c_v]. rewrite Forall_forall in X.
    exists (largest (map cs_v cs)). split.
    - apply max_unwrap_largest; [destruct cs; cbn; congruence|]. apply Forall_map, Forall_forall. intros c Hc. destruct (X c Hc). lia.
    - pose proof (largest_factors cs cs_v N (fun c H => proj2 (X c H))). lia. }
  destruct V as [v [-> V0]]. cbn [bind]. eapply post_bind; [apply post_assert; discriminate|]. intros _ _.
  eapply post_bind; [apply post_lines; auto; repeat constructor|]. intros ls [Fl Nl]. cbn. exists fr. split; [reflexivity|]. split.
  - clear - Fl. induction Fl as [|l ls [B _] _ IH]; cbn [concat]; [constructor|]. apply Forall_app. split; auto.
  - assert (Ln : length ls = Z.to_nat (f_lines fr)).
    { rewrite Nl. rewrite (groups_lines unit (fun _ => tt)) by (subst fr; cbn; destruct HO; lia). rewrite map_length. apply zrange_length. }
    unfold lenZ at 1. rewrite (concat_length ls (Z.to_nat (f_samples fr * lenZ (f_components fr)))).
    2:{ eapply Forall_impl; [|exact Fl]. intros a [_ Ha]. exact Ha. }
    rewrite Ln. assert (0 <= f_lines fr /\ 0 <= f_samples fr) as [A B] by (subst fr; cbn; destruct HO; lia).
    pose proof (lenZ_nonneg _ (f_components fr)). nia.
Qed.
