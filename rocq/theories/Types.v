(** Data types of src/lib.rs. *)
From Verif Require Import Base Huffman Idct Color.

(** lib.rs:167-177 [Dimensions]. *)
Record dims := mkDims { dim_w : Z; dim_h : Z }.
Definition area (d : dims) : Z := dim_w d * dim_h d.

(** lib.rs:218-236 [Component]. *)
Record component := mkComponent {
  c_id : Z;
  c_h : Z;                    (* horizontal_sampling_factor *)
  c_v : Z;                    (* vertical_sampling_factor *)
  c_tq : Z;                   (* quantization_table_destination_selector *)
  c_blocks_per_mcu : Z;
  c_line_stride : Z;
  c_mcu_sample_size : dims;
  c_bytes_per_mcu_line : Z;
  c_block_size : dims;
  c_size : dims;
}.

(** lib.rs:189-196 [Frame]. *)
Record frame := mkFrame {
  f_marker : Z;
  f_precision : Z;
  f_lines : Z;
  f_samples : Z;
  f_mcu : dims;
  f_components : list component;
}.

(** lib.rs:179-185, 199-207 [CodingProcess], [coding_process]. *)
Inductive coding := Baseline | Sequential | Progressive | LossLess.
Definition coding_process (f : frame) : out coding :=
  let i := f_marker f in
  if i =? 0 then Ok Baseline
  else if (i =? 1) || (i =? 5) || (i =? 9) || (i =? 13) then Ok Sequential
  else if (i =? 2) || (i =? 6) || (i =? 10) || (i =? 14) then Ok Progressive
  else if (i =? 3) || (i =? 7) || (i =? 11) || (i =? 15) then Ok LossLess
  else Panic PAssert.

(** [iter().max().unwrap()] over sampling factors (lib.rs:209-215, 305-318,
    upsampler.rs:17-26). *)
Definition max_unwrap (xs : list Z) : out Z :=
  match xs with
  | [] => Panic PUnwrap
  | x :: r => Ok (fold_left Z.max r x)
  end.

(** lib.rs:569-574 [ScanHeader], 561-567 [Scan]. *)
Record scan_header := mkHeader { h_index : Z; h_dc : Z; h_ac : Z }.
Record scan := mkScan {
  s_headers : list scan_header;
  s_start : Z; s_end : Z; s_high : Z; s_low : Z;
}.

(** lib.rs:866-873 [ScanState].  [mcu_row_coefficients] is the list of its ten blocks of
    64 coefficients. *)
Record scan_state := mkSS {
  ss_coefs : list (list Z);
  ss_preds : list Z;
  ss_eob : Z;
  ss_rst : Z;
  ss_left : Z;
  ss_results : list plane;
}.

(** lib.rs:238, 844-849. *)
Definition MAX_BLOCKS : nat := 10.
Definition zero_block : list Z := repeat 0 64.
Definition zero_coefs : list (list Z) := repeat zero_block MAX_BLOCKS.

(** lib.rs:875-886 [ScanState::default]. *)
Definition ss_default : scan_state := mkSS zero_coefs [0; 0; 0; 0] 0 0 0 [].

(** lib.rs:851-864 [Decoder]. *)
Record decoder := mkDecoder {
  d_frame : option frame;
  d_scan : option scan;
  d_ac : list (option ac_table);
  d_dc : list (option base_table);
  d_qt : list (option (list Z));
  d_planes : list plane;
  d_color : option adobe;
  d_restart : Z;
  d_finished : list Z;
  d_ss : scan_state;
}.

(** [Decoder::default()] (derive(Default), lib.rs:851). *)
Definition decoder_default : decoder :=
  mkDecoder None None [None; None; None; None] [None; None; None; None]
            [None; None; None; None] [] None 0 [0; 0; 0; 0] ss_default.

(** Field updates ([self.state.x = ...]). *)
Definition set_frame (d : decoder) (x : option frame) : decoder :=
  mkDecoder x (d_scan d) (d_ac d) (d_dc d) (d_qt d) (d_planes d) (d_color d)
            (d_restart d) (d_finished d) (d_ss d).
Definition set_scan (d : decoder) (x : option scan) : decoder :=
  mkDecoder (d_frame d) x (d_ac d) (d_dc d) (d_qt d) (d_planes d) (d_color d)
            (d_restart d) (d_finished d) (d_ss d).
Definition set_ac (d : decoder) (x : list (option ac_table)) : decoder :=
  mkDecoder (d_frame d) (d_scan d) x (d_dc d) (d_qt d) (d_planes d) (d_color d)
            (d_restart d) (d_finished d) (d_ss d).
Definition set_dc (d : decoder) (x : list (option base_table)) : decoder :=
  mkDecoder (d_frame d) (d_scan d) (d_ac d) x (d_qt d) (d_planes d) (d_color d)
            (d_restart d) (d_finished d) (d_ss d).
Definition set_qt (d : decoder) (x : list (option (list Z))) : decoder :=
  mkDecoder (d_frame d) (d_scan d) (d_ac d) (d_dc d) x (d_planes d) (d_color d)
            (d_restart d) (d_finished d) (d_ss d).
Definition set_planes (d : decoder) (x : list plane) : decoder :=
  mkDecoder (d_frame d) (d_scan d) (d_ac d) (d_dc d) (d_qt d) x (d_color d)
            (d_restart d) (d_finished d) (d_ss d).
Definition set_color (d : decoder) (x : option adobe) : decoder :=
  mkDecoder (d_frame d) (d_scan d) (d_ac d) (d_dc d) (d_qt d) (d_planes d) x
            (d_restart d) (d_finished d) (d_ss d).
Definition set_restart (d : decoder) (x : Z) : decoder :=
  mkDecoder (d_frame d) (d_scan d) (d_ac d) (d_dc d) (d_qt d) (d_planes d) (d_color d)
            x (d_finished d) (d_ss d).
Definition set_finished (d : decoder) (x : list Z) : decoder :=
  mkDecoder (d_frame d) (d_scan d) (d_ac d) (d_dc d) (d_qt d) (d_planes d) (d_color d)
            (d_restart d) x (d_ss d).
Definition set_ss (d : decoder) (x : scan_state) : decoder :=
  mkDecoder (d_frame d) (d_scan d) (d_ac d) (d_dc d) (d_qt d) (d_planes d) (d_color d)
            (d_restart d) (d_finished d) x.

Definition set_coefs (s : scan_state) (x : list (list Z)) : scan_state :=
  mkSS x (ss_preds s) (ss_eob s) (ss_rst s) (ss_left s) (ss_results s).
Definition set_preds (s : scan_state) (x : list Z) : scan_state :=
  mkSS (ss_coefs s) x (ss_eob s) (ss_rst s) (ss_left s) (ss_results s).
Definition set_eob (s : scan_state) (x : Z) : scan_state :=
  mkSS (ss_coefs s) (ss_preds s) x (ss_rst s) (ss_left s) (ss_results s).
Definition set_rst (s : scan_state) (x : Z) : scan_state :=
  mkSS (ss_coefs s) (ss_preds s) (ss_eob s) x (ss_left s) (ss_results s).
Definition set_left (s : scan_state) (x : Z) : scan_state :=
  mkSS (ss_coefs s) (ss_preds s) (ss_eob s) (ss_rst s) x (ss_results s).
Definition set_results (s : scan_state) (x : list plane) : scan_state :=
  mkSS (ss_coefs s) (ss_preds s) (ss_eob s) (ss_rst s) (ss_left s) x.
