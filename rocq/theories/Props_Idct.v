(** C33, C34, C46: the inverse DCT. *)
From Coq Require Import Reals.
From Verif Require Import Base Idct SpecColor SpecIdct SpecDct IdctP IdctP2 IdctReal.
Open Scope Z_scope.

(** C33.  A block with only a DC coefficient gives 64 equal samples, whatever the DC value and
    the quantiser.  They are DC/8 rounded to nearest, level-shifted by 128 and limited to
    0..255, as long as that value is within the range the clamp table covers (-256..767);
    what happens beyond is [C34_refuted]. *)
Theorem C33_flat_block_partial : forall dbg coefs quant, flat coefs ->
  exists s, idct_block_rows dbg coefs quant = Ok (repeat (repeat s 8) 8) /\
    let v := nth 0 coefs 0 * nth 0 quant 0 in
    (-256 <= (v + 4) / 8 + 128 <= 767 -> s = sat ((v + 4) / 8 + 128)).
Proof. exact flat_block. Qed.
Print Assumptions C33_flat_block_partial.

(** The exact answer for every flat block, whatever coefficient and quantiser: the rounded
    value, but modulo 1024 as in [wrap10]. *)
Theorem C33_flat_block_exact : forall dbg coefs quant, flat coefs ->
  idct_block_rows dbg coefs quant = Ok (repeat (repeat (sat (wrap10 ((nth 0 coefs 0 * nth 0 quant 0 + 4) / 8 + 128))) 8) 8).
Proof. exact flat_block_exact. Qed.
Print Assumptions C33_flat_block_exact.

Example C33_flat_block_exact_case :
  flat (2047 :: repeat 0 63) /\ sat (wrap10 ((2047 * 3 + 4) / 8 + 128)) = 0 /\
  idct_block_rows true (2047 :: repeat 0 63) (repeat 3 64) = Ok (repeat (repeat 0 8) 8).
Proof.
  split; [|split; [reflexivity|vm_compute; reflexivity]].
  intros [|k] H; [inversion H; inversion H0|]. cbn [nth]. apply nth_repeat.
Qed.

Example C33_flat_block_case :
  flat (-37 :: repeat 0 63) /\ -256 <= (-37 * 16 + 4) / 8 + 128 <= 767 /\
  idct_block_rows true (-37 :: repeat 0 63) (repeat 16 64) = Ok (repeat (repeat 54 8) 8).
Proof.
  split; [|split; [cbn; split; discriminate|vm_compute; reflexivity]].
  intros [|k] H; [inversion H; inversion H0|]. cbn [nth]. apply nth_repeat.
Qed.

(** C33.  The shortcuts for columns and rows without AC coefficients do not change the result:
    the block equals both passes of the kernel applied everywhere, then the clamp. *)
Theorem C33_shortcuts : forall dbg coefs quant, moderate coefs quant ->
  idct_block_rows dbg coefs quant = mapM (mapM (Clamp.stbi_clamp dbg)) (full_values coefs quant).
Proof. exact block_clamped. Qed.
Print Assumptions C33_shortcuts.

(** Every inverse DCT produces eight rows of eight bytes, the same in both build profiles. *)
Theorem C33_total : forall coefs quant, exists rows,
  (forall dbg, idct_block_rows dbg coefs quant = Ok rows) /\
  length rows = 8%nat /\ Forall (fun r => length r = 8%nat /\ Forall (fun x => 0 <= x <= 255) r) rows.
Proof. exact idct_always. Qed.
Print Assumptions C33_total.

(** Without the bound the column shortcut does differ: the shortcut keeps more bits than the
    wrapping multiplication of the kernel.  A 16-bit quantiser is needed. *)
Theorem C33_shortcuts_refuted : exists coefs quant,
  length coefs = 64%nat /\ Forall (fun c => -32768 <= c <= 32767) coefs /\
  length quant = 64%nat /\ Forall (fun q => 0 <= q <= 65535) quant /\
  idct_block_rows true coefs quant <> mapM (mapM (Clamp.stbi_clamp true)) (full_values coefs quant).
Proof. exact shortcut_differs. Qed.
Print Assumptions C33_shortcuts_refuted.

Example C33_shortcuts_case : moderate (2047 :: -2047 :: repeat 1 62) (repeat 255 64).
Proof. exact moderate_case. Qed.

(** C34.  Samples are the computed values saturated to 0..255 when those are in -256..767. *)
Theorem C34_saturated_partial : forall dbg coefs quant, moderate coefs quant ->
  (forall row v, In row (full_values coefs quant) -> In v row -> -256 <= v <= 767) ->
  idct_block_rows dbg coefs quant = Ok (map (map sat) (full_values coefs quant)).
Proof. exact block_saturated. Qed.
Print Assumptions C34_saturated_partial.

(** What samples are in general: the computed values modulo 1024, then saturated. *)
Theorem C34_exact : forall dbg coefs quant, moderate coefs quant ->
  idct_block_rows dbg coefs quant = Ok (map (map (fun v => sat (wrap10 v))) (full_values coefs quant)).
Proof. exact block_wrapped. Qed.
Print Assumptions C34_exact.

(** C34 fails beyond: the value is taken modulo 1024, so very bright blocks turn black.
    The DC coefficient 1024 with quantiser 7 is within reach of a baseline stream. *)
Theorem C34_refuted : exists coefs quant, moderate coefs quant /\
  full_values coefs quant = repeat (repeat 1024 8) 8 /\
  idct_block_rows true coefs quant = Ok (repeat (repeat 0 8) 8).
Proof. exact wraps_to_black. Qed.
Print Assumptions C34_refuted.

Example C34_saturated_case : moderate (100 :: 37 :: -50 :: repeat 3 61) (repeat 5 64) /\
  (forall row v, In row (full_values (100 :: 37 :: -50 :: repeat 3 61) (repeat 5 64)) -> In v row -> -256 <= v <= 767) /\
  In 255 (concat (map (map sat) (full_values (100 :: 37 :: -50 :: repeat 3 61) (repeat 5 64)))).
Proof. exact saturated_case. Qed.

(** C46.  The fixed-point inverse DCT against the real-valued one of T.81 A.3.3.
    [magnitude F] is the sum of the absolute values of the 64 dequantised coefficients.
    While the exact result is within what the clamp table covers, each sample is within
    5/8 + magnitude/6000 of the exact value limited to 0..255. *)
Theorem C46_accuracy : forall dbg coefs quant, length coefs = 64%nat ->
  let F := dequantised coefs quant in
  (magnitude F <= 65536)%R ->
  (forall y x, (y < 8)%nat -> (x < 8)%nat -> (-240 <= 128 + idct_real F y x <= 750)%R) ->
  exists rows, idct_block_rows dbg coefs quant = Ok rows /\
    forall y x, (y < 8)%nat -> (x < 8)%nat ->
      (Rabs (IZR (nth x (nth y rows []) 0%Z) - level (idct_real F y x)) <= 5 / 8 + magnitude F / 6000)%R.
Proof. exact sample_near. Qed.
Print Assumptions C46_accuracy.

(** C46.  For moderate blocks the range condition is automatic and the error is below one. *)
Theorem C46_within_one : forall dbg coefs quant, length coefs = 64%nat ->
  let F := dequantised coefs quant in
  (magnitude F <= 1472)%R ->
  exists rows, idct_block_rows dbg coefs quant = Ok rows /\
    forall y x, (y < 8)%nat -> (x < 8)%nat ->
      (Rabs (IZR (nth x (nth y rows []) 0%Z) - level (idct_real F y x)) < 1)%R.
Proof. exact sample_within_one. Qed.
Print Assumptions C46_within_one.

(** C46.  The computation does not wrap around: the values before the clamp are those of the
    two matrix products over unbounded integers. *)
Theorem C46_no_overflow : forall coefs quant, (magnitude (dequantised coefs quant) <= 65536)%R ->
  full_values coefs quant =
    map (fun y => map (fun x =>
      (65536 + 128 * 131072 + sum8 (fun u => mx x u *
        ((512 + sum8 (fun v => mx y v * (nth (u + 8 * v) coefs 0 * nth (u + 8 * v) quant 0))) / 1024))) / 131072) (seq 0 8)) (seq 0 8).
Proof. exact no_wrap. Qed.
Print Assumptions C46_no_overflow.

Example C46_case : length (20 :: -30 :: 7 :: repeat 1 61) = 64%nat /\
  (magnitude (dequantised (20 :: -30 :: 7 :: repeat 1 61)%Z (repeat 11%Z 64)) <= 1472)%R.
Proof. exact magnitude_case. Qed.
