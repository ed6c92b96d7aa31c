(** Tables that an image does not use (C93). *)
From Verif Require Import Base SpecBits SpecMarker SpecHuffman SpecTables SpecFrame SpecSegments SpecScan SpecGlobal SpecStream SpecFile SpecLimits SpecDefine SpecSpare
  Biterator Huffman Types Parsers Decode SpareP Props_Scan.

(** A header that defines more tables gives the same image, whatever follows the header. *)
Theorem C93_spare_tables :
  forall dbg rayon fill segs segs' rest img,
    let input := fun s => marker_bytes fill 0xD8 ++ flat_map hseg_bytes s ++ rest in
    Forall (fun s => hseg_ok (snd s)) segs -> Forall (fun s => hseg_ok (snd s)) segs' -> bytes (input segs) -> bytes (input segs') ->
    defines_more segs segs' -> decode_fresh dbg rayon (input segs) = Ok img -> decode_fresh dbg rayon (input segs') = Ok img.
Proof. exact spare_tables. Qed.
Print Assumptions C93_spare_tables.

(** A segment of tables none of which is defined otherwise may be put anywhere in the header. *)
Theorem C93_spare_segment :
  forall dbg rayon fill a s b rest img,
    let input := fun l => marker_bytes fill 0xD8 ++ flat_map hseg_bytes l ++ rest in
    Forall (fun s => hseg_ok (snd s)) (a ++ s :: b) -> bytes (input (a ++ s :: b)) -> only_tables s -> Forall (independent s) (a ++ b) ->
    decode_fresh dbg rayon (input (a ++ b)) = Ok img -> decode_fresh dbg rayon (input (a ++ s :: b)) = Ok img.
Proof. exact spare_segment. Qed.
Print Assumptions C93_spare_segment.

(** The example file with another quantisation table and another pair of Huffman tables. *)
Definition spare_q : nat * hseg := (0%nat, HDqt [mkDqt 1 3 (repeat 999 64)]).
Definition spare_h : nat * hseg := (2%nat, HDht [mkDht DC 1 ([1] ++ repeat 0 15) [9]; mkDht AC 3 ([1] ++ repeat 0 15) [240]]).
Definition spare_rest : list Z := skipn (length (marker_bytes 0 0xD8 ++ flat_map hseg_bytes ex_segs)) (ex_file 0xD0).
Example C93_case :
  let input := fun s => marker_bytes 0 0xD8 ++ flat_map hseg_bytes s ++ spare_rest in
  input ex_segs = ex_file 0xD0 /\ only_tables spare_q /\ Forall (independent spare_q) ex_segs /\ only_tables spare_h /\ Forall (independent spare_h) (spare_q :: ex_segs) /\
  Forall (fun s => hseg_ok (snd s)) [spare_q; spare_h] /\
  exists img, decode_fresh true false (input ex_segs) = Ok img /\ decode_fresh true false (input (spare_q :: ex_segs ++ [spare_h])) = Ok img.
Proof.
  assert (I1 : Forall (independent spare_q) ex_segs).
  { unfold ex_segs. repeat first [apply Forall_nil|apply Forall_cons]; cbn; try exact I. intros a b [<-|[]] [<-|[]]; cbn; lia. }
  split; [vm_compute; reflexivity|]. split; [exact I|]. split; [exact I1|]. split; [exact I|]. split.
  { unfold ex_segs. repeat first [apply Forall_nil|apply Forall_cons]; cbn; try exact I. intros a b [<-|[<-|[]]] [<-|[<-|[]]]; cbn; intros; (discriminate || lia). }
  split.
  - apply Forall_cons; [|apply Forall_cons; [|apply Forall_nil]]; (split; [|vm_compute; reflexivity]); cbn [snd spare_q spare_h].
    + apply Forall_cons; [|apply Forall_nil]. unfold dqt_ok. cbn [tq_prec tq_dest tq_values]. split; [lia|]. split; [lia|]. split; [reflexivity|]. apply Forall_forall. intros v Hv. apply repeat_spec in Hv. subst v. cbn. lia.
    + apply Forall_cons; [|apply Forall_cons; [|apply Forall_nil]]; unfold dht_ok, counts_ok; cbn [th_dest th_counts th_values]; (split; [lia|]);
        (split; [split; [reflexivity|byte_list]|]); (split; [byte_list|]); (split; [reflexivity|]); split; vm_compute; (split; discriminate) || discriminate.
  - eexists. split; [vm_compute; reflexivity|vm_compute; reflexivity].
Qed.

(** Taking away a table that is used is noticed. *)
Example C93_used : exists e, decode_fresh true false (marker_bytes 0 0xD8 ++ flat_map hseg_bytes (firstn 3 ex_segs) ++ spare_rest) = Fail e.
Proof. eexists. vm_compute. reflexivity. Qed.
