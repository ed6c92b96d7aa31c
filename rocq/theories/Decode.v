(** Model of the entropy decoder, the scan loop and the top-level parser of src/lib.rs. *)
From Verif Require Import Base Biterator Huffman Marker Idct Color Types Upsampler Parsers.

(** ** Blocks (lib.rs:1061-1169) *)
(** [x << n] on i16 with n <= 15 (lib.rs:1098, 1163). *)
Definition shl16 (v n : Z) : Z := w16 (Z.shiftl v n).

(** [map_err(|()| end_of_input())?] on the result of a bit read. *)
Definition or_fail {A} (e : error) (r : bitres A) : out (A * biter) :=
  let* (v, b) := r in match v with Some v => Ok (v, b) | None => Fail e end.

(** lib.rs:1076-1099: the DC part: (coefficients, reader, predictor). *)
Definition decode_dc (dbg : bool) (sc : scan) (t : base_table) (coefs : list Z) (b : biter)
           (pred : Z) : out (list Z * biter * Z) :=
  if s_start sc =? 0 then
    let* (value, b) := or_fail EEof (table_decode dbg t b) in
    let* (diff, b) :=
      if value =? 0 then Ok (0, b)
      else if 11 <? value then Fail EDcCategory
      else or_fail EEof (receive_extend dbg b value) in
    let pred := w16 (pred + diff) in
    let* coefs := store coefs 0 (shl16 pred (s_low sc)) in
    Ok (coefs, b, pred)
  else Ok (coefs, b, pred).

(** lib.rs:1124-1165: the AC loop at zigzag position [i] (invariant [i <= last <= 63]).
    [UnZigZag::step] (l.432-439) ends the loop when the position passes [last].  Every
    round advances the position, so [64 - i] rounds suffice; the fuel is 64. *)
Fixpoint ac_loop (dbg : bool) (fuel : nat) (t : ac_table) (low last : Z)
         (coefs : list Z) (b : biter) (eob i : Z) : out (list Z * biter * Z) :=
  match fuel with
  | O => Panic PFuel
  | S n =>
      let put (value run : Z) (b : biter) :=                   (* l.1162-1164 *)
        let i := i + run in
        if i <=? last then
          let* coefs := unzigzag coefs i (shl16 value low) in
          let i := i + 1 in
          if i <=? last then ac_loop dbg n t low last coefs b eob i
          else Ok (coefs, b, eob)
        else Ok (coefs, b, eob) in
      let* (r, b) := decode_fast_ac dbg t b in
      match r with
      | AFast value run => put value run b
      | ANormal byte =>
          let r := Z.shiftr byte 4 in
          let s := Z.land byte 15 in
          if s =? 0 then
            if r =? 15 then                                     (* l.1134-1137 *)
              if i + 16 <=? last then ac_loop dbg n t low last coefs b eob (i + 16)
              else Ok (coefs, b, eob)
            else                                                (* l.1138-1146 *)
              let eob := 2 ^ r - 1 in
              if 0 <? r then
                let* (v, b) := or_fail EOutOfBits (next_bits dbg b r) in
                Ok (coefs, b, eob + v)
              else Ok (coefs, b, eob)
          else
            let* (value, b) := or_fail EEof (receive_extend dbg b s) in
            put value r b
      | AErr => Fail EEof
      end
  end.

(** lib.rs:1061-1169 [decode_block]: (coefficients, reader, eob_run, predictor). *)
Definition decode_block (dbg : bool) (sc : scan) (dct : base_table) (act : ac_table)
           (coefs : list Z) (b : biter) (eob pred : Z) : out (list Z * biter * Z * Z) :=
  let* (coefs, b, pred) := decode_dc dbg sc dct coefs b pred in
  let index := Z.max (s_start sc) 1 in
  let last := Z.min (s_end sc) 63 in
  if (index <=? last) && (0 <? eob) then Ok (coefs, b, eob - 1, pred)
  else if index <? last then
    let* (coefs, b, eob) := ac_loop dbg 64 act (s_low sc) last coefs b eob index in
    Ok (coefs, b, eob, pred)
  else Ok (coefs, b, eob, pred).

(** ** MCUs (lib.rs:994-1059) *)
(** lib.rs:1032-1055: [n] blocks of one component. *)
Fixpoint decode_blocks (dbg : bool) (sc : scan) (dct : base_table) (act : ac_table)
         (n : nat) (b : biter) (eob pred : Z) : out (list (list Z) * biter * Z * Z) :=
  match n with
  | O => Ok ([], b, eob, pred)
  | S m =>
      let* (c, b, eob, pred) := decode_block dbg sc dct act zero_block b eob pred in
      let* (cs, b, eob, pred) := decode_blocks dbg sc dct act m b eob pred in
      Ok (c :: cs, b, eob, pred)
  end.

(** lib.rs:1018-1056: [izip!] over components, headers and predictors.  [avail] is the
    number of blocks left in the ten-block buffer ([take] stops when it is exhausted). *)
Fixpoint decode_comps (dbg : bool) (d : decoder) (sc : scan) (cs : list component)
         (hs : list scan_header) (ps : list Z) (avail : nat) (b : biter) (eob : Z)
  : out (list (list Z) * list Z * biter * Z) :=
  match cs, hs, ps with
  | c :: cs, h :: hs, p :: ps =>
      let* dct := index (d_dc d) (h_dc h) in
      let* dct := match dct with Some t => Ok t | None => Panic PMissing end in
      let* act := index (d_ac d) (h_ac h) in
      let* act := match act with Some t => Ok t | None => Panic PMissing end in
      let n := Nat.min (Z.to_nat (c_blocks_per_mcu c)) avail in
      let* (blocks, b, eob, p) := decode_blocks dbg sc dct act n b eob p in
      let* (rest, ps, b, eob) := decode_comps dbg d sc cs hs ps (avail - n) b eob in
      Ok (blocks ++ rest, p :: ps, b, eob)
  | _, _, ps => Ok ([], ps, b, eob)
  end.

(** lib.rs:994-1059 [decode_row].  On failure the predictors, the run and the reader are
    restored (l.1046-1053), which the model expresses by returning no new state; the
    scratch coefficients keep garbage in the code, but they are zeroed before every use
    (l.1011, 1266), so the model leaves them alone (simplification). *)
Definition decode_row (dbg : bool) (d : decoder) (b : biter) : out (decoder * biter) :=
  match d_scan d, d_frame d with
  | Some sc, Some fr =>
      let s := d_ss d in
      let* (blocks, ps, b, eob) :=
        decode_comps dbg d sc (f_components fr) (s_headers sc) (ss_preds s) MAX_BLOCKS b
                     (ss_eob s) in
      let coefs := blocks ++ repeat zero_block (MAX_BLOCKS - length blocks) in
      Ok (set_ss d (mkSS coefs ps eob (ss_rst s) (ss_left s) (ss_results s)), b)
  | _, _ => Panic PUnwrap
  end.

(** ** Samples (lib.rs:907-992) *)
(** lib.rs:1665-1690 [step_range]: 0, step, 2*step, ... below steps * step. *)
Definition step_range (steps step : Z) : list Z :=
  if 0 <? step then map (fun k => k * step) (zrange steps) else [].

(** [coefficients_chunks.next().expect("Missing coefficients")], [n] times. *)
Fixpoint skip_blocks (n : nat) (blocks : list (list Z)) : out (list (list Z)) :=
  match n with
  | O => Ok blocks
  | S m => match blocks with [] => Panic PMissing | _ :: r => skip_blocks m r end
  end.

(** lib.rs:964-977: the blocks of one block row; [start] is the offset of
    [component_result_start]. *)
Fixpoint idct_blocks_x (dbg : bool) (c : component) (qt : list Z) (start : Z) (xs : list Z)
         (blocks : list (list Z)) (p : plane) : out (list (list Z) * plane) :=
  match xs with
  | [] => Ok (blocks, p)
  | x :: xs =>
      match blocks with
      | [] => Panic PMissing
      | blk :: blocks =>
          let* _ := assert_ (start + x <=? lenZ p) PIndex in
          let* p := idct_block_8x8 dbg blk qt (c_line_stride c) (start + x) p in
          idct_blocks_x dbg c qt start xs blocks p
      end
  end.

(** lib.rs:959-983: the block rows of one component of the MCU. *)
Fixpoint idct_blocks_y (dbg : bool) (c : component) (qt : list Z) (off : Z) (ys : list Z)
         (blocks : list (list Z)) (p : plane) : out (list (list Z) * plane) :=
  match ys with
  | [] => Ok (blocks, p)
  | y :: ys =>
      let* (blocks, p) :=
        if off + y <=? lenZ p then
          idct_blocks_x dbg c qt (off + y) (step_range (c_h c) 8) blocks p
        else
          let* blocks := skip_blocks (Z.to_nat (c_h c)) blocks in Ok (blocks, p) in
      idct_blocks_y dbg c qt off ys blocks p
  end.

(** lib.rs:920-991: [izip!(&frame.components, &mut results)]. *)
Fixpoint dequantize_comps (dbg : bool) (qts : list (option (list Z))) (mcu_x mcu_y : Z)
         (cs : list component) (results : list plane) (blocks : list (list Z))
  : out (list plane) :=
  match cs, results with
  | c :: cs, p :: ps =>
      let* qt := index qts (c_tq c) in
      let* qt := match qt with Some t => Ok t | None => Panic PMissing end in
      let off := mcu_y * c_bytes_per_mcu_line c + mcu_x * dim_w (c_mcu_sample_size c) in
      let* (blocks, p) :=
        if off <=? lenZ p then
          idct_blocks_y dbg c qt off (step_range (c_v c) (c_line_stride c * 8)) blocks p
        else
          let* blocks := skip_blocks (Z.to_nat (c_v c * c_h c)) blocks in Ok (blocks, p) in
      let* ps := dequantize_comps dbg qts mcu_x mcu_y cs ps blocks in
      Ok (p :: ps)
  | _, results => Ok results
  end.

(** lib.rs:907-992 [dequantize]. *)
Definition dequantize (dbg : bool) (mcu_x mcu_y : Z) (d : decoder) : out decoder :=
  match d_frame d with
  | None => Panic PUnwrap
  | Some fr =>
      let* cp := coding_process fr in
      let* _ := match cp with Progressive => Panic PUnimplemented | _ => Ok tt end in
      let s := d_ss d in
      let* ps := dequantize_comps dbg (d_qt d) mcu_x mcu_y (f_components fr)
                                  (ss_results s) (ss_coefs s) in
      Ok (set_ss d (set_results s ps))
  end.

(** ** Restart markers (lib.rs:1314-1387) *)
(** lib.rs:1325-1366 [handle_marker]. *)
Definition handle_restart (d : decoder) (b : biter) (m : marker) : out (decoder * biter) :=
  let s := d_ss d in
  match m with
  | RST n =>
      if n =? ss_rst s then
        Ok (set_ss d (mkSS (ss_coefs s) [0; 0; 0; 0] 0 ((ss_rst s + 1) mod 8) (d_restart d)
                           (ss_results s)),
            biter_reset b)
      else Fail ERstNumber
  | _ => Fail ERstMarker
  end.

(** lib.rs:1376-1378: [marker().then_partial(handle_marker)]. *)
Definition restart_marker (d : decoder) (b : biter) : out (decoder * biter) :=
  let* (m, rest) := parse_marker (bi_input b) in
  handle_restart d (mkBiter rest (bi_bits b) (bi_count b)) m.

(** lib.rs:1368-1385: the closure given to [factory].  It updates the counter and decides
    whether a restart marker has to be read ([true]). *)
Definition restart_check (dbg : bool) (mcu_x mcu_y : Z) (d : decoder) : out (bool * decoder) :=
  if 0 <? d_restart d then
    match d_frame d with
    | None => Panic PUnwrap
    | Some fr =>
        let* lx := usub dbg 16 (dim_w (f_mcu fr)) 1 in
        let* is_last :=
          if mcu_x =? lx then
            let* ly := usub dbg 16 (dim_h (f_mcu fr)) 1 in Ok (mcu_y =? ly)
          else Ok false in
        let s := d_ss d in
        let* lft := usub dbg 16 (ss_left s) 1 in
        Ok ((lft =? 0) && negb is_last, set_ss d (set_left s lft))
    end
  else Ok (false, d).

(** ** Program counters of the (resumable) top-level parser *)
Inductive phase := PhRow | PhRestart.
Inductive pc :=
| PcMarker                                               (* about to look for a marker *)
| PcSegment (m : marker)                                 (* about to parse the segment of [m] *)
| PcScan (final : bool) (todo : list (Z * Z)) (ph : phase).  (* MCUs (y, x) still to do *)

Inductive scan_res :=
| ScDone | ScNeed (todo : list (Z * Z)) (ph : phase) | ScFail (e : error)
| ScPanic (p : panic) | ScUB.

(** lib.rs:1172-1209 [iteration_decode_scanner]: for every MCU [decode_row], then
    [restart_parser], then [dequantize] if this is the final scan.  [rerun] says whether a
    [factory] closure is run again when its parser is resumed after missing input (see
    DESIGN.md); [PhRestart] is the suspension inside the restart parser. *)
Fixpoint scan_loop (dbg rerun final : bool) (todo : list (Z * Z)) (ph : phase)
         (d : decoder) (b : biter) {struct todo} : decoder * biter * scan_res :=
  match todo with
  | [] => (d, b, ScDone)
  | (y, x) :: rest =>
      match (match ph with PhRow => decode_row dbg d b | PhRestart => Ok (d, b) end) with
      | Ok (d1, b1) =>
          let check := match ph with PhRow => true | PhRestart => rerun end in
          match (if check then restart_check dbg x y d1 else Ok (true, d1)) with
          | Ok (need, d2) =>
              match (if need then restart_marker d2 b1 else Ok (d2, b1)) with
              | Ok (d3, b3) =>
                  match (if final then dequantize dbg x y d3 else Ok d3) with
                  | Ok d4 => scan_loop dbg rerun final rest PhRow d4 b3
                  | Fail e => (d3, b3, ScFail e)
                  | Panic p => (d3, b3, ScPanic p)
                  | UB => (d3, b3, ScUB)
                  end
              | Fail EEof => (d2, b1, ScNeed todo PhRestart)
              | Fail e => (d2, b1, ScFail e)
              | Panic p => (d2, b1, ScPanic p)
              | UB => (d2, b1, ScUB)
              end
          | Fail e => (d1, b1, ScFail e)
          | Panic p => (d1, b1, ScPanic p)
          | UB => (d1, b1, ScUB)
          end
      | Fail EEof => (d, b, ScNeed todo PhRow)
      | Fail e => (d, b, ScFail e)
      | Panic p => (d, b, ScPanic p)
      | UB => (d, b, ScUB)
      end
  end.

(** lib.rs:1184: [iproduct!(0..mcu_size.height, 0..mcu_size.width)]. *)
Definition mcu_list (mcu : dims) : list (Z * Z) := list_prod (zrange (dim_h mcu)) (zrange (dim_w mcu)).

(** lib.rs:1229-1259: does some header select an unset table?  [any] stops at the first hit;
    a selector above 3 indexes out of bounds. *)
Fixpoint any_unset {A} (ts : list (option A)) (sel : list Z) : out bool :=
  match sel with
  | [] => Ok false
  | i :: r => let* t := index ts i in
              match t with None => Ok true | Some _ => any_unset ts r end
  end.

(** lib.rs:1225-1292: the first parser of [decode_scan]. *)
Definition scan_init (final : bool) (d : decoder) : out decoder :=
  match d_frame d, d_scan d with
  | Some fr, Some sc =>
      let* u := if s_start sc =? 0 then any_unset (d_dc d) (map h_dc (s_headers sc)) else Ok false in
      if u then Fail EUnsetDc
      else
        let* u := if 1 <? s_end sc then any_unset (d_ac d) (map h_ac (s_headers sc)) else Ok false in
        if u then Fail EUnsetAc
        else
          let* results :=
            if final then
              let* _ := assert_ (lenZ (f_components fr) <=? 4) PCapacity in      (* l.1273-1278 *)
              Ok (map (fun c => repeat None (Z.to_nat (area (c_block_size c) * 64)))
                      (f_components fr))                                          (* l.1280-1288 *)
            else Ok [] in
          Ok (set_ss d (mkSS zero_coefs [0; 0; 0; 0] 0 0 (d_restart d) results))
  | _, _ => Panic PUnwrap
  end.

(** lib.rs:1299-1310: the planes of the scan's components, in header order, are moved out. *)
Fixpoint take_planes (results : list plane) (hs : list scan_header)
  : out (list plane * list plane) :=
  match hs with
  | [] => Ok ([], results)
  | h :: r =>
      let* p := index results (h_index h) in
      let* results := store results (h_index h) [] in
      let* (ps, results) := take_planes results r in
      Ok (p :: ps, results)
  end.

(** lib.rs:1299-1310 and 806-809. *)
Definition scan_finish (d : decoder) : out decoder :=
  match d_scan d with
  | None => Panic PUnwrap
  | Some sc =>
      let s := d_ss d in
      let* (ps, results) := take_planes (ss_results s) (s_headers sc) in
      Ok (set_planes (set_ss d (set_results s results)) ps)
  end.

(** lib.rs:788-794: [coefficients_finished[i] |= 1 << j] for j in start..=end; a u64 shift
    by 64 or more panics in a debug build and is masked to 6 bits in release. *)
Fixpoint set_bits (dbg : bool) (js : list Z) (x : Z) : out Z :=
  match js with
  | [] => Ok x
  | j :: r =>
      if 64 <=? j then
        if dbg then Panic POverflow else set_bits dbg r (Z.lor x (2 ^ (j mod 64)))
      else set_bits dbg r (Z.lor x (2 ^ j))
  end.
Definition z_from_to (a b : Z) : list Z := map (fun k => a + k) (zrange (b - a + 1)).
Fixpoint mark_finished (dbg : bool) (js : list Z) (hs : list scan_header) (fin : list Z)
  : out (list Z) :=
  match hs with
  | [] => Ok fin
  | h :: r =>
      match js with
      | [] => mark_finished dbg js r fin
      | _ =>
          let* x := index fin (h_index h) in
          let* x := set_bits dbg js x in
          let* fin := store fin (h_index h) x in
          mark_finished dbg js r fin
      end
  end.

(** lib.rs:796-799 [all]: stops at the first unfinished component. *)
Fixpoint all_finished (fin : list Z) (hs : list scan_header) : out bool :=
  match hs with
  | [] => Ok true
  | h :: r => let* x := index fin (h_index h) in
              if x =? 2 ^ 64 - 1 then all_finished fin r else Ok false
  end.

(** lib.rs:768-802: after the scan header was parsed.  The decoder is returned also on
    failure ([scan] is already stored). *)
Definition sos_begin (dbg : bool) (d : decoder) (sc : scan) : decoder * out bool :=
  let d := set_scan d (Some sc) in
  match d_frame d with
  | None => (d, Fail ESosNoFrame)
  | Some fr =>
      match coding_process fr with
      | Ok Progressive => (d, Panic PUnimplemented)
      | Ok _ =>
          match (if s_low sc =? 0
                 then mark_finished dbg (z_from_to (s_start sc) (s_end sc)) (s_headers sc)
                                    (d_finished d)
                 else Ok (d_finished d)) with
          | Ok fin =>
              let d := set_finished d fin in
              (d, all_finished fin (s_headers sc))
          | Fail e => (d, Fail e)
          | Panic p => (d, Panic p)
          | UB => (d, UB)
          end
      | Fail e => (d, Fail e)
      | Panic p => (d, Panic p)
      | UB => (d, UB)
      end
  end.

(** ** The output image (lib.rs:1419-1500) *)
(** lib.rs:1470-1486: lines are taken in groups of [v]; the pair is (row passed to [f],
    number of lines in the group).  [rayon] selects l.1488-1497, where the row is the index
    of the group. *)
Definition line_groups (rayon : bool) (height v : Z) : list (Z * Z) :=
  map (fun k => (if rayon then k else k * v, Z.min v (height - k * v)))
      (zrange ((height + v - 1) / v)).

(** lib.rs:1458-1465 [f] for every group: all lines of a group get the same colours. *)
Fixpoint image_lines (dbg : bool) (f : color_func) (ups : list up_component)
         (data : list plane) (width ncomp : Z) (bufs : list (list Z)) (groups : list (Z * Z))
  : out (list (list Z)) :=
  match groups with
  | [] => Ok []
  | (row, n) :: r =>
      let* (colors, bufs) := upsample_and_interleave_row dbg ups data bufs row width in
      let* line := color_convert dbg f (repeat 0 (Z.to_nat (width * ncomp))) colors in
      let* rest := image_lines dbg f ups data width ncomp bufs r in
      Ok (repeat line (Z.to_nat n) ++ rest)
  end.

(** lib.rs:1419-1500 [upsample]. *)
Definition upsample_image (dbg rayon : bool) (d : decoder) : out (list Z) :=
  match d_frame d with
  | None => Panic PUnwrap
  | Some fr =>
      let n := lenZ (f_components fr) in
      let* f := choose_color_convert_func n (d_color d) in
      let* ups := upsampler_new (f_components fr) (mkDims (f_samples fr) (f_lines fr)) in
      let* v := max_unwrap (map c_v (f_components fr)) in
      let* _ := assert_ (negb (f_samples fr * n =? 0)) PAssert in     (* chunks_mut(0) *)
      let* lines := image_lines dbg f ups (d_planes d) (f_samples fr) n [[]; []; []; []]
                                (line_groups rayon (f_lines fr) v) in
      Ok (concat lines)
  end.

(** ** The top-level parser (lib.rs:1389-1417, 1502-1549) *)
Inductive res :=
| RImage (img : list Z)     (* finished with an image *)
| RError (e : error)        (* finished, [upsample] returned Err *)
| RNeed (p : pc)            (* needs more input; resume at [p] *)
| RFail (e : error)         (* parse error *)
| RPanic (p : panic)
| RUB.
Inductive step_res := SNext (p : pc) | SStop (r : res).

(** A segment whose payload was parsed by [r]; end of input inside the payload is an end of
    input error as well: a streaming caller is told to wait and then resumes the segment
    parser after the consumed payload (assumption about combine, irrelevant for one-shot). *)
Definition seg_end (m : marker) (d : decoder) (b : biter) (r : out unit)
  : decoder * biter * step_res :=
  match r with
  | Ok _ => (d, b, SNext PcMarker)
  | Fail EEof => (d, b, SStop (RNeed (PcSegment m)))
  | Fail e => (d, b, SStop (RFail e))
  | Panic p => (d, b, SStop (RPanic p))
  | UB => (d, b, SStop RUB)
  end.

(** The payload interpreters of [do_segment] except SOS: (new decoder, outcome). *)
Definition seg_payload (dbg : bool) (m : marker) (d : decoder) (data : list Z)
  : decoder * out unit :=
  let keep {A} (r : out A) (k : A -> decoder) : decoder * out unit :=
    match r with
    | Ok a => (k a, Ok tt)
    | Fail e => (d, Fail e)
    | Panic p => (d, Panic p)
    | UB => (d, UB)
    end in
  match m with
  | SOF i => keep (sof dbg i data) (fun '(f, _) => set_frame d (Some f))
  | DHT => seg_dht dbg (length data) d data
  | DQT => seg_dqt (length data) d data
  | DRI => keep (p_u16 data) (fun '(r, _) => set_restart d r)
  | APP n => if n =? 14 then keep (app_adobe data) (fun '(t, _) => set_color d (Some t))
             else (d, Ok tt)
  | _ => (d, Ok tt)
  end.

(** lib.rs:752-811 [sos] on its payload, up to the first MCU. *)
Definition do_sos (dbg : bool) (d : decoder) (b : biter) (data : list Z)
  : decoder * biter * step_res :=
  match sos_segment (d_frame d) data with
  | Ok (sc, _) =>
      match sos_begin dbg d sc with
      | (d1, Ok final) =>
          match scan_init final d1 with
          | Ok d2 =>
              let mcu := match d_frame d2 with Some fr => f_mcu fr | None => mkDims 0 0 end in
              (d2, b, SNext (PcScan final (mcu_list mcu) PhRow))
          | Fail e => (d1, b, SStop (RFail e))
          | Panic p => (d1, b, SStop (RPanic p))
          | UB => (d1, b, SStop RUB)
          end
      | (d1, Fail e) => (d1, b, SStop (RFail e))
      | (d1, Panic p) => (d1, b, SStop (RPanic p))
      | (d1, UB) => (d1, b, SStop RUB)
      end
  | Fail EEof => (d, b, SStop (RNeed (PcSegment SOS)))
  | Fail e => (d, b, SStop (RFail e))
  | Panic p => (d, b, SStop (RPanic p))
  | UB => (d, b, SStop RUB)
  end.

(** Markers without a segment (lib.rs:1520). *)
Definition no_segment (m : marker) : bool :=
  match m with SOI | RST _ | COM | EOI => true | _ => false end.

(** One step of the machine.  [rayon] is the build feature used by [upsample]. *)
Definition step (dbg rerun rayon : bool) (p : pc) (d : decoder) (b : biter)
  : decoder * biter * step_res :=
  match p with
  | PcMarker =>
      (* lib.rs:1405-1415: the end parser looks for EOI without consuming; if it finds
         another marker the same marker is parsed again and dispatched. *)
      match parse_marker (bi_input b) with
      | Ok (m, rest) =>
          let b' := mkBiter rest (bi_bits b) (bi_count b) in
          match m with
          | EOI =>
              match upsample_image dbg rayon d with
              | Ok img => (d, b', SStop (RImage img))
              | Fail e => (d, b', SStop (RError e))
              | Panic p => (d, b', SStop (RPanic p))
              | UB => (d, b', SStop RUB)
              end
          | _ => (d, b', SNext (PcSegment m))
          end
      | Fail EEof => (d, b, SStop (RNeed PcMarker))
      | Fail e => (d, b, SStop (RFail e))
      | Panic p => (d, b, SStop (RPanic p))
      | UB => (d, b, SStop RUB)
      end
  | PcSegment m =>
      if no_segment m then (d, b, SNext PcMarker)
      else
        match segment_data dbg (bi_input b) with
        | Ok (data, rest) =>
            let b' := mkBiter rest (bi_bits b) (bi_count b) in
            match m with
            | SOS => do_sos dbg d b' data
            | _ => let '(d', r) := seg_payload dbg m d data in seg_end m d' b' r
            end
        | Fail EEof => (d, b, SStop (RNeed (PcSegment m)))
        | Fail e => (d, b, SStop (RFail e))
        | Panic p => (d, b, SStop (RPanic p))
        | UB => (d, b, SStop RUB)
        end
  | PcScan final todo ph =>
      let '(d1, b1, r) := scan_loop dbg rerun final todo ph d b in
      match r with
      | ScDone =>
          match scan_finish d1 with
          | Ok d2 => (d2, b1, SNext PcMarker)
          | Fail e => (d1, b1, SStop (RFail e))
          | Panic p => (d1, b1, SStop (RPanic p))
          | UB => (d1, b1, SStop RUB)
          end
      | ScNeed todo' ph' => (d1, b1, SStop (RNeed (PcScan final todo' ph')))
      | ScFail e => (d1, b1, SStop (RFail e))
      | ScPanic p => (d1, b1, SStop (RPanic p))
      | ScUB => (d1, b1, SStop RUB)
      end
  end.

(** Iterating [step].  Every marker step consumes input, so [run_fuel] steps are enough
    (proved: [PFuel] is unreachable). *)
Fixpoint run (dbg rerun rayon : bool) (fuel : nat) (p : pc) (d : decoder) (b : biter)
  : decoder * biter * res :=
  match fuel with
  | O => (d, b, RPanic PFuel)
  | S n =>
      match step dbg rerun rayon p d b with
      | (d', b', SNext p') => run dbg rerun rayon n p' d' b'
      | (d', b', SStop r) => (d', b', r)
      end
  end.
Definition run_fuel (b : biter) : nat := 3 * length (bi_input b) + 3.

(** lib.rs:888-905 [Decoder::decode]: the new decoder and the outcome.  Bytes left after the
    end of the image trip the assertion of l.902. *)
Definition decode (dbg rayon : bool) (d : decoder) (input : list Z) : decoder * out (list Z) :=
  let b0 := biter_new input in
  let '(d', b, r) := run dbg false rayon (run_fuel b0) PcMarker d b0 in
  (d', match r with
       | RImage img => match bi_input b with [] => Ok img | _ => Panic PAssert end
       | RError e => match bi_input b with [] => Fail e | _ => Panic PAssert end
       | RNeed _ => Fail EEof
       | RFail e => Fail e
       | RPanic p => Panic p
       | RUB => UB
       end).

(** lib.rs:1551-1555 [decode]: a fresh decoder. *)
Definition decode_fresh (dbg rayon : bool) (input : list Z) : out (list Z) :=
  snd (decode dbg rayon decoder_default input).

(** ** Streaming (lib.rs:1557-1663) *)
(** lib.rs:1557-1563 [DecoderCodec]. *)
Record codec := mkCodec { k_dec : decoder; k_pc : pc; k_bits : Z; k_count : Z }.
Definition codec_new : codec := mkCodec decoder_default PcMarker 0 0.

(** lib.rs:1575-1607 [DecoderCodec::decode] on the bytes buffered by the caller: the new
    codec, the bytes left in the buffer and the outcome ([Ok None] asks for more).  After a
    parse error the buffer is not advanced (l.1599).  The program counter in the codec returned
    with an error is arbitrary (simplification: combine keeps the state of the parser that
    failed); no theorem is about calls after an error. *)
Definition codec_decode (dbg rerun rayon : bool) (k : codec) (buf : list Z)
  : codec * list Z * out (option (list Z)) :=
  match buf with
  | [] => (k, [], Ok None)
  | _ =>
      let b0 := mkBiter buf (k_bits k) (k_count k) in
      let '(d, b, r) := run dbg rerun rayon (run_fuel b0) (k_pc k) (k_dec k) b0 in
      let k' p := mkCodec d p (bi_bits b) (bi_count b) in
      match r with
      | RImage img => (k' PcMarker, bi_input b, Ok (Some img))
      | RError e => (k' PcMarker, bi_input b, Fail e)
      | RNeed p => (k' p, bi_input b, Ok None)
      | RFail e => (k' PcMarker, buf, Fail e)
      | RPanic p => (k' PcMarker, buf, Panic p)
      | RUB => (k' PcMarker, buf, UB)
      end
  end.

(** A framed stream: chunks arrive one at a time, are appended to the buffer, and the codec
    is called after each arrival.  Result: the list of answers, the final codec and buffer;
    it stops at the first answer that is not [Ok None]. *)
Fixpoint codec_feed (dbg rerun rayon : bool) (k : codec) (buf : list Z)
         (chunks : list (list Z)) : codec * list Z * out (option (list Z)) :=
  match chunks with
  | [] => (k, buf, Ok None)
  | c :: r =>
      match codec_decode dbg rerun rayon k (buf ++ c) with
      | (k', buf', Ok None) => codec_feed dbg rerun rayon k' buf' r
      | x => x
      end
  end.

(** lib.rs:1619-1662 [ReadDecoder::decode]: read a piece, parse, until done; an empty read
    is the end of the input.  [combine::decode!] is modelled by the same buffer discipline
    as the codec. *)
Fixpoint read_decode (dbg rerun rayon : bool) (k : codec) (buf : list Z)
         (reads : list (list Z)) : codec * list Z * out (list Z) :=
  match reads with
  | [] => (k, buf, Fail EEof)
  | c :: r =>
      match codec_decode dbg rerun rayon k (buf ++ c) with
      | (k', buf', Ok None) => read_decode dbg rerun rayon k' buf' r
      | (k', buf', Ok (Some img)) => (k', buf', Ok img)
      | (k', buf', Fail e) => (k', buf', Fail e)
      | (k', buf', Panic p) => (k', buf', Panic p)
      | (k', buf', UB) => (k', buf', UB)
      end
  end.
