(** Debug and release builds: whatever the debug build computes without panicking, the
    release build computes too. *)
From Verif Require Import Base Tactics Biterator Huffman Marker Clamp Idct Color Types Upsampler Parsers Decode.

Definition agrees {A} (a b : out A) : Prop := (exists p, a = Panic p) \/ a = b.

Lemma ag_refl : forall A (a : out A), agrees a a.
Proof. right. reflexivity. Qed.
Lemma ag_panic : forall A p (b : out A), agrees (Panic p) b.
Proof. left. eauto. Qed.
Lemma ag_bind : forall A B (x y : out A) (f g : A -> out B), agrees x y -> (forall a, agrees (f a) (g a)) -> agrees (bind x f) (bind y g).
Proof.
  intros A B x y f g [[p E]|E] H; subst; [apply ag_panic|]. destruct y; cbn; auto using ag_refl.
Qed.
Create HintDb ag discriminated.
Global Hint Constants Opaque : ag.

Ltac ag1 :=
  first
  [ match goal with |- agrees ?x ?y => constr_eq x y; apply ag_refl end
  | simple apply ag_panic
  | solve [auto with ag nocore]
  | simple apply ag_bind; [|let a := fresh "a" in intros a]
  | match goal with |- agrees ?l ?r =>
      match l with context [match ?x with _ => _ end] =>
        lazymatch x with
        | context [match _ with _ => _ end] => fail
        | context [true] => fail
        | _ => destruct x eqn:?
        end end end
  | progress cbv beta iota ].
Ltac ag := repeat ag1.

Lemma ag_debug_assert : forall b, agrees (debug_assert true b) (debug_assert false b).
Proof. intros []; unfold debug_assert; cbn; ag. Qed.
Lemma ag_usub : forall n a b, agrees (usub true n a b) (usub false n a b).
Proof. intros. unfold usub. ag. Qed.
Lemma ag_umul16 : forall a b, agrees (umul16 true a b) (umul16 false a b).
Proof. intros. unfold umul16. ag. Qed.
Global Hint Resolve ag_debug_assert ag_usub ag_umul16 : ag.
Lemma ag_consume : forall b n, agrees (consume_bits true b n) (consume_bits false b n).
Proof. intros. unfold consume_bits. ag. Qed.
Lemma ag_peek_raw : forall b n, agrees (peek_raw true b n) (peek_raw false b n).
Proof. intros. unfold peek_raw. ag. Qed.
Global Hint Resolve ag_consume ag_peek_raw : ag.
Lemma ag_peek : forall b n, agrees (peek_bits true b n) (peek_bits false b n).
Proof. intros. unfold peek_bits. ag. Qed.
Lemma ag_peek8 : forall b n, agrees (peek_bits_u8 true b n) (peek_bits_u8 false b n).
Proof. intros. unfold peek_bits_u8. ag. Qed.
Global Hint Resolve ag_peek ag_peek8 : ag.
Lemma ag_next : forall b n, agrees (next_bits true b n) (next_bits false b n).
Proof. intros. unfold next_bits. ag. Qed.
Global Hint Resolve ag_next : ag.
Lemma ag_receive : forall b n, agrees (receive_extend true b n) (receive_extend false b n).
Proof. intros. unfold receive_extend. ag. Qed.
Lemma ag_search : forall t n b bits i, agrees (search_code true t b bits n i) (search_code false t b bits n i).
Proof. intros t. induction n; intros; cbn [search_code]; ag. Qed.
Global Hint Resolve ag_receive ag_search : ag.
Lemma ag_inner : forall t b p, agrees (decode_inner true t b p) (decode_inner false t b p).
Proof. intros. unfold decode_inner. ag. Qed.
Global Hint Resolve ag_inner : ag.
Lemma ag_table_decode : forall t b, agrees (table_decode true t b) (table_decode false t b).
Proof. intros. unfold table_decode. ag. Qed.
Lemma ag_fast : forall t b, agrees (decode_fast_ac true t b) (decode_fast_ac false t b).
Proof. intros. unfold decode_fast_ac. ag. Qed.
Lemma ag_table_new : forall c v, agrees (table_new true c v) (table_new false c v).
Proof. intros. unfold table_new. ag. Qed.
Global Hint Resolve ag_table_decode ag_fast ag_table_new : ag.
Lemma ag_ac_new : forall c v, agrees (ac_new true c v) (ac_new false c v).
Proof. intros. unfold ac_new. ag. Qed.
Global Hint Resolve ag_ac_new : ag.
Lemma ag_clamp : forall x, agrees (stbi_clamp true x) (stbi_clamp false x).
Proof. intros. unfold stbi_clamp. ag. Qed.
Global Hint Resolve ag_clamp : ag.
Lemma ag_mapM : forall A B (f g : A -> out B) l, (forall a, agrees (f a) (g a)) -> agrees (mapM f l) (mapM g l).
Proof. induction l; intros H; cbn [mapM]; ag; auto. Qed.
Lemma ag_idct_row : forall r, agrees (idct_row true r) (idct_row false r).
Proof. intros. unfold idct_row. ag. apply ag_mapM. intros. ag. Qed.
Lemma ag_idct_rows : forall c q, agrees (idct_block_rows true c q) (idct_block_rows false c q).
Proof. intros. unfold idct_block_rows. apply ag_mapM. intros. apply ag_idct_row. Qed.
Global Hint Resolve ag_idct_rows : ag.
Lemma ag_idct : forall c q s o p, agrees (idct_block_8x8 true c q s o p) (idct_block_8x8 false c q s o p).
Proof. intros. unfold idct_block_8x8. ag. Qed.
Global Hint Resolve ag_idct : ag.
Lemma ag_ycc_clamp : forall x, agrees (ycc_clamp true x) (ycc_clamp false x).
Proof. intros. unfold ycc_clamp. ag. Qed.
Global Hint Resolve ag_ycc_clamp : ag.
Lemma ag_ycc : forall a b c, agrees (ycbcr_to_rgb true a b c) (ycbcr_to_rgb false a b c).
Proof. intros. unfold ycbcr_to_rgb. ag. Qed.
Global Hint Resolve ag_ycc : ag.
Lemma ag_line_ycbcr : forall y d cb cr, agrees (line_ycbcr true d y cb cr) (line_ycbcr false d y cb cr).
Proof. induction y; intros [|? [|? [|? d]]] [|? cb] [|? cr]; cbn [line_ycbcr]; ag. Qed.
Lemma ag_line_ycck : forall y d cb cr, agrees (line_ycck true d y cb cr) (line_ycck false d y cb cr).
Proof. induction y; intros [|? [|? [|? [|? d]]]] [|? cb] [|? cr]; cbn [line_ycck]; ag. Qed.
Global Hint Resolve ag_line_ycbcr ag_line_ycck : ag.
Lemma ag_convert : forall f d i, agrees (color_convert true f d i) (color_convert false f d i).
Proof. intros. unfold color_convert. ag. Qed.
Global Hint Resolve ag_convert : ag.
Lemma ag_h2v1 : forall i s st r w b, agrees (up_h2v1 true i s st r w b) (up_h2v1 false i s st r w b).
Proof. intros. unfold up_h2v1. ag. Qed.
Lemma ag_h1v2 : forall i s st r w b, agrees (up_h1v2 true i s st r w b) (up_h1v2 false i s st r w b).
Proof. intros. unfold up_h1v2. ag. Qed.
Lemma ag_h2v2 : forall i s st r b, agrees (up_h2v2 true i s st r b) (up_h2v2 false i s st r b).
Proof. intros. unfold up_h2v2. ag. Qed.
Global Hint Resolve ag_h2v1 ag_h1v2 ag_h2v2 : ag.
Lemma ag_row : forall c i r w b, agrees (upsample_row true c i r w b) (upsample_row false c i r w b).
Proof. intros. unfold upsample_row. ag. Qed.
Global Hint Resolve ag_row : ag.
Lemma ag_rows : forall cs data bufs r w, agrees (upsample_rows true cs data bufs r w) (upsample_rows false cs data bufs r w).
Proof. induction cs; intros [|? data] [|? bufs] r w; cbn [upsample_rows]; ag. Qed.
Global Hint Resolve ag_rows : ag.
Lemma ag_interleave : forall cs data bufs r w,
  agrees (upsample_and_interleave_row true cs data bufs r w) (upsample_and_interleave_row false cs data bufs r w).
Proof. intros. unfold upsample_and_interleave_row. ag. Qed.
Global Hint Resolve ag_interleave : ag.
Lemma ag_lines : forall f ups data w n gs bufs, agrees (image_lines true f ups data w n bufs gs) (image_lines false f ups data w n bufs gs).
Proof. induction gs as [|[row k] gs IH]; intros bufs; cbn [image_lines]; ag. Qed.
Global Hint Resolve ag_lines : ag.
Lemma ag_image : forall rayon d, agrees (upsample_image true rayon d) (upsample_image false rayon d).
Proof. intros. unfold upsample_image. ag. Qed.

(** Segments. *)
Lemma ag_fill : forall a b c d e f, agrees (fill_component true a b c d e f) (fill_component false a b c d e f).
Proof. intros. unfold fill_component. ag. Qed.
Lemma ag_sof : forall m i, agrees (sof true m i) (sof false m i).
Proof. intros. unfold sof. ag. apply ag_mapM. intros. apply ag_fill. Qed.
Lemma ag_store_huffman : forall d c th l v, agrees (store_huffman true d c th l v) (store_huffman false d c th l v).
Proof. intros. unfold store_huffman. ag. Qed.
Lemma ag_segment_data : forall i, agrees (segment_data true i) (segment_data false i).
Proof. intros. unfold segment_data. ag. Qed.

(** A pair of a state and an outcome: equal, or the debug outcome is a panic. *)
Definition agrees2 {S A} (x y : S * out A) : Prop := (exists p, snd x = Panic p) \/ x = y.
Lemma ag_dht : forall fuel d i, agrees2 (seg_dht true fuel d i) (seg_dht false fuel d i).
Proof.
  induction fuel; intros d [|x i]; cbn [seg_dht]; try (right; reflexivity).
  destruct (huffman_table (x :: i)) as [[[[[c th] l] v] i']|e|p|]; try (right; reflexivity).
  destruct (ag_store_huffman d c th l v) as [[p E]|E]; [left; rewrite E; exists p; reflexivity|]. rewrite E.
  destruct (store_huffman false d c th l v); try (right; reflexivity). apply IHfuel.
Qed.
Lemma ag_payload : forall m d data, agrees2 (seg_payload true m d data) (seg_payload false m d data).
Proof.
  intros m d data. destruct m; cbn [seg_payload]; try (right; reflexivity).
  - destruct (ag_sof n data) as [[p E]|E]; rewrite E; [left; exists p; reflexivity|right; reflexivity].
  - apply ag_dht.
Qed.

(** Entropy decoding. *)
Lemma ag_or_fail : forall A e (x y : bitres A), agrees x y -> agrees (or_fail e x) (or_fail e y).
Proof. intros. unfold or_fail. apply ag_bind; auto. intros. ag. Qed.
Global Hint Resolve ag_or_fail : ag.
Lemma ag_dc : forall sc t c b p, agrees (decode_dc true sc t c b p) (decode_dc false sc t c b p).
Proof. intros. unfold decode_dc. ag. Qed.
Global Hint Resolve ag_dc : ag.
Lemma ag_ac_loop : forall t low last fuel c b e i, agrees (ac_loop true fuel t low last c b e i) (ac_loop false fuel t low last c b e i).
Proof. induction fuel; intros; cbn [ac_loop]; ag. Qed.
Global Hint Resolve ag_ac_loop : ag.
Lemma ag_block : forall sc t a c b e p, agrees (decode_block true sc t a c b e p) (decode_block false sc t a c b e p).
Proof. intros. unfold decode_block. ag. Qed.
Global Hint Resolve ag_block : ag.
Lemma ag_blocks : forall sc t a n b e p, agrees (decode_blocks true sc t a n b e p) (decode_blocks false sc t a n b e p).
Proof. induction n; intros; cbn [decode_blocks]; ag. Qed.
Global Hint Resolve ag_blocks : ag.
Lemma ag_comps : forall d sc cs hs ps n b e, agrees (decode_comps true d sc cs hs ps n b e) (decode_comps false d sc cs hs ps n b e).
Proof. induction cs; intros [|h hs] [|p ps] n b e; cbn [decode_comps]; ag. Qed.
Global Hint Resolve ag_comps : ag.
Lemma ag_decode_row : forall d b, agrees (decode_row true d b) (decode_row false d b).
Proof. intros. unfold decode_row. ag. Qed.
Lemma ag_x : forall c q s xs bl p, agrees (idct_blocks_x true c q s xs bl p) (idct_blocks_x false c q s xs bl p).
Proof. induction xs; intros [|k bl] p; cbn [idct_blocks_x]; ag. Qed.
Global Hint Resolve ag_x : ag.
Lemma ag_y : forall c q o ys bl p, agrees (idct_blocks_y true c q o ys bl p) (idct_blocks_y false c q o ys bl p).
Proof. induction ys; intros bl p; cbn [idct_blocks_y]; ag. Qed.
Global Hint Resolve ag_y : ag.
Lemma ag_deq : forall q x y cs ps bl, agrees (dequantize_comps true q x y cs ps bl) (dequantize_comps false q x y cs ps bl).
Proof. induction cs; intros [|p ps] bl; cbn [dequantize_comps]; ag. Qed.
Global Hint Resolve ag_deq : ag.
Lemma ag_dequantize : forall x y d, agrees (dequantize true x y d) (dequantize false x y d).
Proof. intros. unfold dequantize. ag. Qed.
Lemma ag_restart : forall x y d, agrees (restart_check true x y d) (restart_check false x y d).
Proof. intros. unfold restart_check. ag. Qed.
Lemma ag_set_bits : forall js x, agrees (set_bits true js x) (set_bits false js x).
Proof. induction js; intros x; cbn [set_bits]; ag. Qed.
Global Hint Resolve ag_set_bits : ag.
Lemma ag_mark : forall js hs fin, agrees (mark_finished true js hs fin) (mark_finished false js hs fin).
Proof. induction hs; intros fin; cbn [mark_finished]; ag. Qed.

(** The machine. *)
Lemma ag_scan : forall rerun final todo ph d b,
  (exists p, snd (scan_loop true rerun final todo ph d b) = ScPanic p) \/
  scan_loop true rerun final todo ph d b = scan_loop false rerun final todo ph d b.
Proof.
  induction todo as [|[y x] rest IH]; intros ph d b; [right; reflexivity|]. cbn [scan_loop].
  assert (A1 : agrees (match ph with PhRow => decode_row true d b | PhRestart => Ok (d, b) end)
                      (match ph with PhRow => decode_row false d b | PhRestart => Ok (d, b) end)).
  { destruct ph; [apply ag_decode_row|apply ag_refl]. }
  destruct A1 as [[p E]|E]; rewrite E; [left; eexists; reflexivity|].
  destruct (match ph with PhRow => decode_row false d b | PhRestart => Ok (d, b) end) as [[d1 b1]|e|p|]; try (right; reflexivity).
  set (check := match ph with PhRow => true | PhRestart => rerun end).
  assert (A2 : agrees (if check then restart_check true x y d1 else Ok (true, d1)) (if check then restart_check false x y d1 else Ok (true, d1))).
  { destruct check; [apply ag_restart|apply ag_refl]. }
  destruct A2 as [[p E2]|E2]; rewrite E2; [left; eexists; reflexivity|].
  destruct (if check then restart_check false x y d1 else Ok (true, d1)) as [[need d2]|e|p|]; try (right; reflexivity).
  destruct (if need then restart_marker d2 b1 else Ok (d2, b1)) as [[d3 b3]|e|p|]; try (right; reflexivity).
  assert (A3 : agrees (if final then dequantize true x y d3 else Ok d3) (if final then dequantize false x y d3 else Ok d3)).
  { destruct final; [apply ag_dequantize|apply ag_refl]. }
  destruct A3 as [[p E3]|E3]; rewrite E3; [left; eexists; reflexivity|].
  destruct (if final then dequantize false x y d3 else Ok d3); try (right; reflexivity). apply IH.
Qed.

Lemma ag_sos_begin : forall d sc, agrees2 (sos_begin true d sc) (sos_begin false d sc).
Proof.
  intros. unfold sos_begin. destruct (d_frame (set_scan d (Some sc))) as [fr|]; [|right; reflexivity].
  destruct (coding_process fr) as [[]|e|p|]; try (right; reflexivity).
  all: destruct (s_low sc =? 0); [|right; reflexivity].
  all: destruct (ag_mark (z_from_to (s_start sc) (s_end sc)) (s_headers sc) (d_finished (set_scan d (Some sc)))) as [[p E]|E];
    rewrite E; [left; eexists; reflexivity|right; reflexivity].
Qed.

Definition panicked (r : step_res) : Prop := match r with SStop (RPanic _) => True | _ => False end.

Lemma ag_do_sos : forall d b data, panicked (snd (do_sos true d b data)) \/ do_sos true d b data = do_sos false d b data.
Proof.
  intros. unfold do_sos. destruct (sos_segment (d_frame d) data) as [[sc r]|e|p|]; try (right; reflexivity).
  destruct (ag_sos_begin d sc) as [[p E]|E]; [|rewrite E; right; reflexivity].
  destruct (sos_begin true d sc) as [d1 o]. cbn in E. subst. left. exact I.
Qed.

Lemma ag_step : forall rerun rayon p d b,
  panicked (snd (step true rerun rayon p d b)) \/ step true rerun rayon p d b = step false rerun rayon p d b.
Proof.
  intros rerun rayon [|m|final todo ph] d b; cbn [step].
  - destruct (parse_marker (bi_input b)) as [[m rest]|e|p|]; try (right; reflexivity).
    destruct m; try (right; reflexivity).
    destruct (ag_image rayon d) as [[p E]|E]; rewrite E; [left; exact I|right; reflexivity].
  - destruct (no_segment m); [right; reflexivity|].
    destruct (ag_segment_data (bi_input b)) as [[p E]|E]; rewrite E; [left; exact I|].
    destruct (segment_data false (bi_input b)) as [[data rest]|e|p|]; try (right; reflexivity).
    assert (G : forall b', panicked (snd (let '(d', r) := seg_payload true m d data in seg_end m d' b' r)) \/
      (let '(d', r) := seg_payload true m d data in seg_end m d' b' r) = (let '(d', r) := seg_payload false m d data in seg_end m d' b' r)).
    { intros b'. destruct (ag_payload m d data) as [[p P]|P]; [|rewrite P; right; reflexivity].
      destruct (seg_payload true m d data) as [d' r]. cbn in P. subst. left. exact I. }
    destruct m; try apply G. apply ag_do_sos.
  - destruct (ag_scan rerun final todo ph d b) as [[p E]|E]; [|rewrite E; right; reflexivity].
    destruct (scan_loop true rerun final todo ph d b) as [[d1 b1] r]. cbn in E. subst. left. exact I.
Qed.

Lemma ag_run : forall rerun rayon fuel p d b,
  (exists q, snd (run true rerun rayon fuel p d b) = RPanic q) \/ run true rerun rayon fuel p d b = run false rerun rayon fuel p d b.
Proof.
  induction fuel; intros p d b; cbn [run]; [right; reflexivity|].
  destruct (ag_step rerun rayon p d b) as [H|H].
  - left. destruct (step true rerun rayon p d b) as [[d' b'] [p'|[]]]; cbn in H; try contradiction. eexists; reflexivity.
  - rewrite H. destruct (step false rerun rayon p d b) as [[d' b'] [p'|r]]; [apply IHfuel|right; reflexivity].
Qed.

Lemma debug_release : forall rayon d input, (exists p, snd (decode true rayon d input) = Panic p) \/ decode true rayon d input = decode false rayon d input.
Proof.
  intros. unfold decode. destruct (ag_run false rayon (run_fuel (biter_new input)) PcMarker d (biter_new input)) as [[q H]|H].
  - left. destruct (run true false rayon (run_fuel (biter_new input)) PcMarker d (biter_new input)) as [[d' b] r]. cbn in H. subst. eexists; reflexivity.
  - right. rewrite H. reflexivity.
Qed.

Lemma debug_release_codec : forall rerun rayon k buf,
  (exists p, snd (codec_decode true rerun rayon k buf) = Panic p) \/ codec_decode true rerun rayon k buf = codec_decode false rerun rayon k buf.
Proof.
  intros. unfold codec_decode. destruct buf as [|x buf]; [right; reflexivity|]. set (b0 := mkBiter (x :: buf) (k_bits k) (k_count k)).
  destruct (ag_run rerun rayon (run_fuel b0) (k_pc k) (k_dec k) b0) as [[q H]|H].
  - left. destruct (run true rerun rayon (run_fuel b0) (k_pc k) (k_dec k) b0) as [[d' b] r]. cbn in H. subst. eexists; reflexivity.
  - right. rewrite H. reflexivity.
Qed.
