(** Damaged scan data (C60, and C42 for the exact answer). *)
From Verif Require Import Base SpecBits SpecReader SpecMarker SpecHuffman SpecBlock SpecTables SpecFrame SpecSegments SpecScan SpecPlane SpecUpsample SpecImage SpecColor SpecFile SpecAnswer SpecLimits SpecDamage Decode DamageP2 Props_Scan Props_Limits.

(** ** C60: damage stays inside its restart interval *)
(** [known] says which MCUs can still be read: in every interval those before the damage, and
    nothing about the others.  The decoder reports an error, or gives the answer of
    SpecAnswer.v for MCUs that are the known ones wherever they are known. *)
Theorem C60_contained :
  forall dbg rayon segs h fill1 fill2 ss ts qs data post fill3 known,
    header_for segs h ss ts qs -> scan_part ts (last (dris segs) 0) 0 known data -> post_ok post ->
    let cs := fh_comps h in let lines := fh_lines h in let samples := fh_samples h in 0 < lines -> 0 < samples ->
    let file := file_bytes segs fill1 fill2 (mkSpS ss 0 63 0 0) data post fill3 in bytes file ->
    lenZ known = mcus lines (largest (map cs_v cs)) * mcus samples (largest (map cs_h cs)) -> Forall (known_shape cs) known ->
    (exists e, decode_fresh dbg rayon file = Fail e) \/
    exists ms ps, agrees known ms /\ Forall (mcu_shape cs) ms /\ length ps = length cs /\
      (forall k c, nth_error cs k = Some c -> exists q p, nth_error qs k = Some q /\ nth_error ps k = Some p /\ plane_from lines samples cs ms k c q p) /\
      final_answer rayon lines samples cs ps (last_transform (segs ++ post)) (decode_fresh dbg rayon file).
Proof. exact damage_contained. Qed.
Print Assumptions C60_contained.

(** So every sample of an intact MCU is what it is for the undamaged file. *)
Theorem C60_same_samples :
  forall dbg rayon segs h fill1 fill2 ss ts qs ms0 data0 known data post fill3,
    encodes segs h ss ts qs ms0 data0 -> scan_part ts (last (dris segs) 0) 0 known data -> agrees known ms0 -> post_ok post ->
    let cs := fh_comps h in let lines := fh_lines h in let samples := fh_samples h in 0 < lines -> 0 < samples ->
    let whole := file_bytes segs fill1 fill2 (mkSpS ss 0 63 0 0) data0 post fill3 in
    let damaged := file_bytes segs fill1 fill2 (mkSpS ss 0 63 0 0) data post fill3 in bytes whole -> bytes damaged ->
    (exists e, decode_fresh dbg rayon damaged = Fail e) \/
    exists ps0 ps, length ps0 = length cs /\ length ps = length cs /\
      final_answer rayon lines samples cs ps0 (last_transform (segs ++ post)) (decode_fresh dbg rayon whole) /\
      final_answer rayon lines samples cs ps (last_transform (segs ++ post)) (decode_fresh dbg rayon damaged) /\
      forall k c p0 p y x m, nth_error cs k = Some c -> nth_error ps0 k = Some p0 -> nth_error ps k = Some p ->
        0 <= y < plane_rows lines cs c -> 0 <= x < plane_stride samples cs c ->
        nth_error known (Z.to_nat (mcu_row (cs_v c) y * mcus samples (largest (map cs_h cs)) + mcu_col (cs_h c) x)) = Some (Some m) ->
        px p (plane_stride samples cs c) y x = px p0 (plane_stride samples cs c) y x.
Proof. exact intact_samples. Qed.
Print Assumptions C60_same_samples.

(** The file of C45 with other bytes in the first of its two intervals: an image, whose last
    pixel (the second MCU) has not changed; and an error. *)
Definition hurt (d : list Z) : list Z := d ++ [255; 0xD0] ++ ex_data2.
Definition hurt_file (d : list Z) : list Z := file_bytes ex_segs 0 1 (mkSpS ex_ss 0 63 0 0) (hurt d) ex_post 2.
Example C60_case :
  (forall ds, bytes ds -> scan_part [ex_ts; ex_ts; ex_ts] (last (dris ex_segs) 0) 0 [None; Some ex_m2] (hurt (stuff ds))) /\ agrees [None; Some ex_m2] [ex_m1; ex_m2] /\
  lenZ [None; Some ex_m2] = mcus 1 (largest (map cs_v ex_cs)) * mcus 9 (largest (map cs_h ex_cs)) /\ Forall (known_shape ex_cs) [None; Some ex_m2] /\
  match decode_fresh true false (hurt_file [0x80]), decode_fresh true false (hurt_file ex_data1) with
  | Ok img, Ok img0 => img <> img0 /\ skipn 24 img = skipn 24 img0 /\ length img = 27%nat
  | _, _ => False
  end /\
  decode_fresh true false (hurt_file [255; 0]) = Fail EEof.
Proof.
  split; [|split; [|split; [|split; [|split]]]].
  - intros ds B. apply (sp_more _ _ 0 [None] (stuff ds) [Some ex_m2] ex_data2); [reflexivity|reflexivity|discriminate| |].
    + exists ds, [], [], 1%nat. split; [exact B|]. split; [reflexivity|]. split; [reflexivity|]. split; [constructor|]. exists 0%nat. split; [left; reflexivity|]. eexists. reflexivity.
    + apply sp_last; [right; discriminate|]. apply (data_interval _ [ex_m2]). exact ex_bits2.
  - apply Forall2_cons; [intros m E; discriminate E|]. apply Forall2_cons; [intros m E; congruence|constructor].
  - reflexivity.
  - apply Forall_cons; [intros m E; discriminate E|]. apply Forall_cons; [|constructor]. intros m E. injection E as <-. destruct ex_encodes as [_ _ _ _ _ _ Sh _ _]. inversion Sh as [|? ? _ Sh']. inversion Sh'. assumption.
  - vm_compute. split; [discriminate|]. split; reflexivity.
  - vm_compute. reflexivity.
Qed.

(** ** C42: the answer to any scan data *)
(** [data] is any bytes without a marker other than RST0..RST7. *)
Theorem C42_damaged_answer :
  forall dbg rayon segs h fill1 fill2 ss ts qs data post fill3,
    header_for segs h ss ts qs -> rst_only data -> post_ok post ->
    let cs := fh_comps h in let lines := fh_lines h in let samples := fh_samples h in 0 < lines -> 0 < samples ->
    let file := file_bytes segs fill1 fill2 (mkSpS ss 0 63 0 0) data post fill3 in bytes file ->
    (exists e, decode_fresh dbg rayon file = Fail e) \/
    exists ms ps, Forall (mcu_shape cs) ms /\ lenZ ms = mcus lines (largest (map cs_v cs)) * mcus samples (largest (map cs_h cs)) /\ length ps = length cs /\
      (forall k c, nth_error cs k = Some c -> exists q p, nth_error qs k = Some q /\ nth_error ps k = Some p /\ plane_from lines samples cs ms k c q p) /\
      final_answer rayon lines samples cs ps (last_transform (segs ++ post)) (decode_fresh dbg rayon file).
Proof. exact damage_total. Qed.
Print Assumptions C42_damaged_answer.
