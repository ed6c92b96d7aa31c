(** Segments with malformed contents (C86). *)
From Verif Require Import Base SpecBits SpecMarker SpecHuffman SpecSegments SpecGlobal SpecStream SpecFile SpecLimits SpecMalformed
  Types Decode CommentP MalformedP.

(** A malformed segment, wherever a segment is expected ([between_segments], SpecLimits.v; C44_places
    lists such places), ends the call: there is no image, and what follows does not matter.  The
    call panics only for the contents in [crashes]. *)
Theorem C86_stops :
  forall dbg rayon d a fill code payload,
    reachable dbg rayon d -> between_segments dbg rayon d a -> segment_code code -> bytes a -> bytes payload ->
    ~ well_formed code payload ->
    exists r,
      (forall b, let file := a ++ marker_bytes fill code ++ segment payload ++ b in bytes file -> snd (decode dbg rayon d file) = r) /\
      match r with Fail _ => True | Panic _ => crashes dbg code payload | _ => False end.
Proof. exact malformed_stops. Qed.
Print Assumptions C86_stops.

(** Otherwise it is an error. *)
Theorem C86_error :
  forall dbg rayon d a fill code payload,
    reachable dbg rayon d -> between_segments dbg rayon d a -> segment_code code -> bytes a -> bytes payload ->
    ~ well_formed code payload -> ~ crashes dbg code payload ->
    exists e, forall b, let file := a ++ marker_bytes fill code ++ segment payload ++ b in bytes file ->
      snd (decode dbg rayon d file) = Fail e.
Proof. exact malformed_error. Qed.
Print Assumptions C86_error.

Theorem C86_crash :
  forall dbg rayon d a fill code payload b,
    reachable dbg rayon d -> between_segments dbg rayon d a -> segment_code code ->
    let file := a ++ marker_bytes fill code ++ segment payload ++ b in bytes file ->
    crashes dbg code payload -> exists p, snd (decode dbg rayon d file) = Panic p.
Proof. exact malformed_crash. Qed.
Print Assumptions C86_crash.

(** After a well-formed segment (a scan header is followed by a scan) the decoder expects the
    next one. *)
Theorem C86_passed :
  forall dbg rayon d a fill code payload,
    reachable dbg rayon d -> between_segments dbg rayon d a -> segment_code code -> code <> 0xDA -> bytes a ->
    well_formed code payload -> between_segments dbg rayon d (a ++ marker_bytes fill code ++ segment payload).
Proof. exact well_formed_passed. Qed.
Print Assumptions C86_passed.

(** A scan header after well-formed segments has to name components of the last frame header, in
    its order; anything else is an error, and so is a scan without a frame header. *)
Theorem C86_scan_header :
  forall dbg rayon d fill1 segs fill2 payload h,
    reachable dbg rayon d -> Forall (fun s => hseg_ok (snd s)) segs -> last (map Some (sofs segs)) None = Some h -> bytes payload ->
    ~ (exists s extra, scan_ok s /\ names (fh_comps h) s /\ payload = sos_bytes s ++ extra) ->
    exists e, forall b, let file := marker_bytes fill1 0xD8 ++ flat_map hseg_bytes segs ++ marker_bytes fill2 0xDA ++ segment payload ++ b in
      bytes file -> snd (decode dbg rayon d file) = Fail e.
Proof. exact scan_header_error. Qed.
Print Assumptions C86_scan_header.

Theorem C86_scan_without_frame :
  forall dbg rayon fill1 segs fill2 payload, Forall (fun s => hseg_ok (snd s)) segs -> sofs segs = [] -> bytes payload ->
    exists e, forall b, let file := marker_bytes fill1 0xD8 ++ flat_map hseg_bytes segs ++ marker_bytes fill2 0xDA ++ segment payload ++ b in
      bytes file -> decode_fresh dbg rayon file = Fail e.
Proof. exact scan_without_frame. Qed.
Print Assumptions C86_scan_without_frame.

(** A Huffman table with three codes of one bit, and a restart interval of one byte. *)
Definition too_many : list Z := 0 :: (3 :: repeat 0 15) ++ [1; 2; 3].
Example C86_case : forall dbg rayon,
  between_segments dbg rayon decoder_default [0xFF; 0xD8] /\
  ~ well_formed 0xC4 too_many /\ ~ crashes dbg 0xC4 too_many /\ ~ well_formed 0xDD [5] /\
  decode_fresh dbg rayon ([0xFF; 0xD8] ++ marker_bytes 0 0xC4 ++ segment too_many ++ [0xFF; 0xD9]) = Fail EHuffCode /\
  decode_fresh dbg rayon ([0xFF; 0xD8] ++ marker_bytes 0 0xDD ++ segment [5] ++ [0xFF; 0xD9]) = Fail EEof.
Proof.
  assert (L : forall t more, dht_bytes t ++ more = too_many -> counts_ok (th_counts t) -> th_counts t = 3 :: repeat 0 15).
  { intros t more E [L _]. unfold dht_bytes, too_many in E. injection E as _ E. rewrite <- app_assoc in E. apply (f_equal (firstn 16)) in E.
    rewrite firstn_app, L, Nat.sub_diag, firstn_O, app_nil_r, firstn_all2 in E by (rewrite L; apply le_n). exact E. }
  intros dbg rayon. split; [|split; [|split; [|split; [|split]]]].
  - apply (header_between dbg rayon decoder_default 0 []); constructor.
  - intros [_ [H _]]. destruct (H eq_refl) as [ts [F E]]. destruct ts as [|t ts]; [discriminate|]. inversion F as [|? ? [_ [C [_ [_ [_ K]]]]] _]; subst.
    rewrite (L t (flat_map dht_bytes ts) (eq_sym E) C) in K. vm_compute in K. apply K. reflexivity.
  - intros [[H _]|[_ [ts [t [more [E [F [_ [C [_ T]]]]]]]]]]; [lia|]. destruct ts as [|t0 ts].
    + rewrite (L t more (eq_sym E) C) in T. vm_compute in T. destruct T as [T|[_ T]]; discriminate.
    + inversion F as [|? ? [_ [C0 [_ [_ [_ K]]]]] _]; subst. cbn [flat_map] in E. rewrite <- app_assoc in E. rewrite (L t0 _ (eq_sym E) C0) in K. vm_compute in K. apply K. reflexivity.
  - intros [_ [_ [_ [_ [H _]]]]]. destruct (H eq_refl) as [n [extra [_ E]]]. discriminate.
  - destruct dbg, rayon; vm_compute; reflexivity.
  - destruct dbg, rayon; vm_compute; reflexivity.
Qed.

(** A frame header without components, and scan headers that name the second component of two
    after the first and before it. *)
Example C86_header_case : forall rayon,
  crashes true 0xC0 [8; 0; 1; 0; 1; 0] /\
  decode_fresh true rayon ([0xFF; 0xD8] ++ marker_bytes 0 0xC0 ++ segment [8; 0; 1; 0; 1; 0] ++ [0xFF; 0xD9]) = Panic PUnwrap /\
  let cs := [mkCS 7 1 1 0; mkCS 9 1 1 0] in let frame := [(0%nat, HSof (mkFH 0 8 1 1 cs))] in
  let scan a b := mkSpS [mkSC a 0 0; mkSC b 0 0] 0 63 0 0 in
  Forall (fun s => hseg_ok (snd s)) frame /\ names cs (scan 7 9) /\ ~ names cs (scan 9 7) /\
  decode_fresh true rayon (marker_bytes 0 0xD8 ++ flat_map hseg_bytes frame ++ marker_bytes 0 0xDA ++ segment (sos_bytes (scan 9 7)) ++ [0xFF; 0xD9]) = Fail ESosOrder.
Proof.
  intros rayon. split; [left; split; [lia|reflexivity]|]. split; [destruct rayon; vm_compute; reflexivity|]. cbv zeta. split; [|split; [|split]].
  - constructor; [|constructor]. split; [|vm_compute; reflexivity]. split; [cbn; lia|].
    constructor; cbn; try lia; try discriminate; repeat constructor; cbn; lia.
  - split; [cbn; lia|]. exists [0%nat; 1%nat]. split; [repeat constructor|]. constructor; [split; [reflexivity|intros j H; lia]|constructor; [|constructor]].
    split; [reflexivity|]. intros [|j] H; [discriminate|lia].
  - intros [_ [ks [S F]]]. inversion F as [|? k1 ? ? [H1 _] F1]; subst. inversion F1 as [|? k2 ? ? [H2 _] F2]; subst. cbn [map cs_id sc_id] in H1, H2.
    destruct k1 as [|[|[|k1]]]; try discriminate. destruct k2 as [|[|[|k2]]]; try discriminate. inversion S as [|? ? _ Hd]; subst. inversion Hd; subst. lia.
  - destruct rayon; vm_compute; reflexivity.
Qed.
