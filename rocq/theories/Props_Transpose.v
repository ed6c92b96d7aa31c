(** Images whose lines and columns are exchanged (C77). *)
From Verif Require Import Base SpecBits SpecReader SpecMarker SpecHuffman SpecBlock SpecTables SpecFrame SpecSegments SpecScan SpecPlane SpecUpsample SpecImage SpecColor SpecFile SpecAnswer SpecEncoder SpecEdit SpecFlip SpecTranspose
  Huffman Decode EncoderP FlipP3 TransposeP.

(** ** C77: lines and columns exchanged *)
(** The second file has the size of the first with lines and columns exchanged; its MCUs are
    those of the first with rows and columns exchanged, and in every block and every table of
    quantisation values horizontal and vertical frequencies are exchanged.  If all sampling
    factors are 1 and the blocks are moderate, its image is that of the first with lines and
    columns exchanged, up to 1 per byte with four components and up to 3 with three. *)
Theorem C77_transposed_partial :
  forall dbg rayon segs h fill1 fill2 ss ts data post fill3 segs' h' fill1' fill2' ss' ts' data' post' fill3' qs qs' ms ms' img,
    encodes segs h ss ts qs ms data -> encodes segs' h' ss' ts' qs' ms' data' -> post_ok post -> post_ok post' ->
    let cs := fh_comps h in let lines := fh_lines h in let samples := fh_samples h in
    fh_lines h' = samples -> fh_samples h' = lines -> 0 < lines -> 0 < samples ->
    Forall (fun c => cs_h c = 1 /\ cs_v c = 1) cs -> Forall (fun c => cs_h c = 1 /\ cs_v c = 1) (fh_comps h') -> length (fh_comps h') = length cs ->
    last_transform (segs' ++ post') = last_transform (segs ++ post) ->
    Forall2 transposed_table qs qs' -> transposed (mcus samples 1) (mcus lines 1) ms ms' -> all_modest qs ms ->
    let file := file_bytes segs fill1 fill2 (mkSpS ss 0 63 0 0) data post fill3 in
    let file' := file_bytes segs' fill1' fill2' (mkSpS ss' 0 63 0 0) data' post' fill3' in
    bytes file -> bytes file' -> decode_fresh dbg rayon file = Ok img ->
    exists img', decode_fresh dbg rayon file' = Ok img' /\
      forall y x, 0 <= y < lines -> 0 <= x < samples ->
        Forall2 (fun a b => Z.abs (a - b) <= if lenZ cs =? 4 then 1 else 3) (pixel (lenZ cs) lines x y img') (pixel (lenZ cs) samples y x img).
Proof. exact transpose_image. Qed.
Print Assumptions C77_transposed_partial.

(** Every such image can be transposed: [transpose] makes an image that can be encoded. *)
Theorem C77_transpose_partial :
  forall dbg rayon im img, image_ok im -> Forall (fun f => f = (1, 1)) (im_factors im) -> 0 < im_lines im -> 0 < im_samples im ->
    all_modest (im_quant im) (im_mcus im) -> decode_fresh dbg rayon (encode im) = Ok img ->
    image_ok (transpose im) /\ transposed (mcus (im_samples im) 1) (mcus (im_lines im) 1) (im_mcus im) (im_mcus (transpose im)) /\
    exists img', decode_fresh dbg rayon (encode (transpose im)) = Ok img' /\
      forall y x, 0 <= y < im_lines im -> 0 <= x < im_samples im ->
        Forall2 (fun a b => Z.abs (a - b) <= if lenZ (im_factors im) =? 4 then 1 else 3)
          (pixel (lenZ (im_factors im)) (im_lines im) x y img') (pixel (lenZ (im_factors im)) (im_samples im) y x img).
Proof. exact (fun dbg rayon im img OK F L S M D => conj (transpose_ok im OK F) (conj (transpose_transposed im) (transpose_function im OK F dbg rayon img L S M D))). Qed.
Print Assumptions C77_transpose_partial.

(** A quarter turn: turning upside down (C73) and transposing turns the picture clockwise; the
    column [lines - 1 - y] of the new picture is the line [y] of the old one. *)
Theorem C77_quarter_turn_partial :
  forall im dbg rayon img, image_ok im -> Forall (fun f => f = (1, 1)) (im_factors im) -> im_lines im mod 8 = 0 -> 0 < im_lines im -> 0 < im_samples im ->
    all_modest (im_quant im) (im_mcus im) -> decode_fresh dbg rayon (encode im) = Ok img ->
    image_ok (transpose (turn im)) /\
    exists img', decode_fresh dbg rayon (encode (transpose (turn im))) = Ok img' /\
      forall y x, 0 <= y < im_lines im -> 0 <= x < im_samples im ->
        Forall2 (fun a b => Z.abs (a - b) <= if lenZ (im_factors im) =? 4 then 1 else 3)
          (pixel (lenZ (im_factors im)) (im_lines im) x (im_lines im - 1 - y) img') (pixel (lenZ (im_factors im)) (im_samples im) y x img).
Proof. exact quarter_turn. Qed.
Print Assumptions C77_quarter_turn_partial.

(** An image of 16 lines of 17 pixels (two rows of three MCUs) with three components. *)
Definition tr_q (dc a b : Z) : qblock := mkQ dc ([a; b; 0; 5; 0; 0; -3] ++ repeat 0 56).
Definition tr_table : list Z := [3; 5; 7] ++ repeat 3 61.
Definition tr_case : image :=
  mkImage 16 17 [(1, 1); (1, 1); (1, 1)] [tr_table; repeat 7 64; repeat 2 64]
    [[[tr_q 5 20 30]; [tr_q 1 2 3]; [tr_q 0 7 8]]; [[tr_q (-100) 0 60]; [tr_q 1 0 3]; [tr_q 4 0 1]]; [[tr_q 9 40 (-30)]; [tr_q 7 2 3]; [tr_q 0 7 0]];
     [[tr_q 50 10 (-7)]; [tr_q 9 8 7]; [tr_q 0 0 0]]; [[tr_q 80 0 6]; [tr_q 1 0 3]; [tr_q 4 0 40]]; [[tr_q 9 (-40) 3]; [tr_q 7 2 3]; [tr_q 0 7 0]]] None 2.
Definition in_range (lo hi : Z) (l : list Z) : bool := forallb (fun v => (lo <=? v) && (v <=? hi)) l.
Lemma range_ok : forall lo hi l, in_range lo hi l = true -> Forall (fun v => lo <= v <= hi) l.
Proof. intros lo hi l H. unfold in_range in H. rewrite forallb_forall in H. apply Forall_forall. intros v I. specialize (H v I). lia. Qed.
Lemma table_ok : forall l, in_range 0 65535 l = true -> Forall (fun v => 0 <= v < 65536) l.
Proof. intros l H. apply range_ok in H. revert H. apply Forall_impl. intros v. lia. Qed.
Ltac ok_image :=
  split; cbn [im_lines im_samples im_factors im_quant im_mcus im_transform im_restart]; try lia; try reflexivity; try (cbn; lia); try exact I;
  [repeat apply Forall_cons; try apply Forall_nil; cbn; lia
  |repeat apply Forall_cons; try apply Forall_nil; (split; [reflexivity|]); apply table_ok; reflexivity
  |repeat apply Forall_cons; try apply Forall_nil; repeat apply Forall2_cons; try apply Forall2_nil; reflexivity
  |repeat apply Forall_cons; try apply Forall_nil; (split; [cbn [q_dc]; lia|split; [reflexivity|apply range_ok; reflexivity]])].
Definition modest_b (q : list Z) (b : qblock) : bool := fold_right Z.add 0 (map (fun i => Z.abs (coef b i * nth i q 0)) (seq 0 64)) <=? 1472.
Lemma modest_all : forall qs ms, forallb (fun m => forallb (fun qb => forallb (modest_b (fst qb)) (snd qb)) (combine qs m)) ms = true -> all_modest qs ms.
Proof.
  intros qs ms H m k q bs Im Eq Eb. rewrite forallb_forall in H. specialize (H m Im). rewrite forallb_forall in H.
  assert (IC : In (q, bs) (combine qs m)).
  { clear - Eq Eb. revert m k Eq Eb. induction qs as [|a qs IH]; intros [|b m] [|k] Eq Eb; try discriminate; cbn in *; [left; congruence|right; exact (IH _ _ Eq Eb)]. }
  specialize (H _ IC). cbn [fst snd] in H. rewrite forallb_forall in H. apply Forall_forall. intros b Ib. specialize (H b Ib). unfold modest_b in H. apply modest_small, Z.leb_le. exact H.
Qed.
Example C77_case : image_ok tr_case /\ Forall (fun f => f = (1, 1)) (im_factors tr_case) /\ im_lines tr_case mod 8 = 0 /\ all_modest (im_quant tr_case) (im_mcus tr_case) /\
  exists img img', decode_fresh true false (encode tr_case) = Ok img /\ decode_fresh true false (encode (transpose tr_case)) = Ok img' /\
    pixel 3 17 2 11 img = [136; 129; 145] /\ pixel 3 16 11 2 img' = [136; 129; 145] /\ pixel 3 17 11 2 img <> pixel 3 17 2 11 img.
Proof.
  split; [unfold tr_case, tr_q, tr_table; ok_image|]. split; [repeat constructor|]. split; [reflexivity|]. split; [apply modest_all; vm_compute; reflexivity|].
  eexists. eexists. split; [vm_compute; reflexivity|]. split; [vm_compute; reflexivity|]. split; [vm_compute; reflexivity|]. split; [vm_compute; reflexivity|vm_compute; discriminate].
Qed.

(** ** What is not exact *)
(** The two passes of the inverse transform round differently: there are samples that change by 1
    when a block is transposed. *)
Definition tr_none : qblock := mkQ 0 (repeat 0 63).
Definition tr_one (a : Z) : image :=
  mkImage 8 8 [(1, 1); (1, 1); (1, 1); (1, 1)] (repeat (repeat 1 64) 4) [[[mkQ 0 (a :: repeat 0 62)]; [tr_none]; [tr_none]; [tr_none]]] (Some 0) 0.
Theorem C77_exact_refuted :
  exists im img img' y x, image_ok im /\ Forall (fun f => f = (1, 1)) (im_factors im) /\ im_lines im = 8 /\ im_samples im = 8 /\ all_modest (im_quant im) (im_mcus im) /\
    transposed 1 1 (im_mcus im) (im_mcus (transpose im)) /\
    decode_fresh true false (encode im) = Ok img /\ decode_fresh true false (encode (transpose im)) = Ok img' /\
    0 <= y < 8 /\ 0 <= x < 8 /\ pixel 4 8 x y img' <> pixel 4 8 y x img.
Proof.
  exists (tr_one 333). eexists. eexists. exists 0, 3. split; [unfold tr_one, tr_none; ok_image|]. split; [repeat constructor|]. split; [reflexivity|]. split; [reflexivity|]. split; [apply modest_all; vm_compute; reflexivity|].
  split; [exact (transpose_transposed (tr_one 333))|]. split; [vm_compute; reflexivity|]. split; [vm_compute; reflexivity|]. split; [lia|]. split; [lia|]. vm_compute. discriminate.
Qed.
Print Assumptions C77_exact_refuted.

(** With subsampling in both directions (4:2:0) it is false by far more than rounding: lines are
    shown in pairs, columns are not (C40).  All luminance blocks are the same, all others zero. *)
Definition tr_420 (b : qblock) : image :=
  mkImage 16 16 [(2, 2); (1, 1); (1, 1)] (repeat (repeat 4 64) 3) [[[b; b; b; b]; [tr_none]; [tr_none]]] None 0.
Theorem C77_subsampled_refuted :
  exists b b' img img', transposed_block b b' /\ image_ok (tr_420 b) /\ image_ok (tr_420 b') /\
    all_modest (im_quant (tr_420 b)) (im_mcus (tr_420 b)) /\
    decode_fresh true false (encode (tr_420 b)) = Ok img /\ decode_fresh true false (encode (tr_420 b')) = Ok img' /\
    pixel 3 16 3 0 img' = [167; 167; 167] /\ pixel 3 16 0 3 img = [142; 142; 142].
Proof.
  exists (mkQ 0 (100 :: 0 :: repeat 0 61)), (transpose_block (mkQ 0 (100 :: 0 :: repeat 0 61))). eexists. eexists.
  split; [apply transpose_block_ok|].
  split; [unfold tr_420, tr_none; ok_image|]. split; [unfold tr_420, tr_none; change (transpose_block (mkQ 0 (100 :: 0 :: repeat 0 61))) with (mkQ 0 (0 :: 100 :: repeat 0 61)); ok_image|].
  split; [apply modest_all; vm_compute; reflexivity|]. split; [vm_compute; reflexivity|]. split; [vm_compute; reflexivity|]. split; vm_compute; reflexivity.
Qed.
Print Assumptions C77_subsampled_refuted.
