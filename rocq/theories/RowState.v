(** A second model of [decode_row] (lib.rs:994-1169) that keeps the mutable state: every
    function returns the state it leaves behind also when it fails, and [decode_row] restores
    the saved copies explicitly.  [Decode.decode_row] is the pure version; RowStateP proves
    that the two agree. *)
From Verif Require Import Base Biterator Huffman Idct Types Parsers Decode.

(** The state, and whether the function returned normally. *)
Definition left (A : Type) := (A * out unit)%type.

(** lib.rs:1076-1099. *)
Definition dc_state (dbg : bool) (sc : scan) (t : base_table) (coefs : list Z) (b : biter) (pred : Z)
  : left (list Z * biter * Z) :=
  if s_start sc =? 0 then
    match table_decode dbg t b with
    | Ok (None, b) => ((coefs, b, pred), Fail EEof)                          (* l.1077-1079 *)
    | Ok (Some value, b) =>
        let store_dc (diff : Z) (b : biter) :=
          let pred := w16 (pred + diff) in                                   (* l.1097 *)
          match store coefs 0 (shl16 pred (s_low sc)) with                   (* l.1098 *)
          | Ok coefs => ((coefs, b, pred), Ok tt)
          | Fail e => ((coefs, b, pred), Fail e)
          | Panic p => ((coefs, b, pred), Panic p)
          | UB => ((coefs, b, pred), UB)
          end in
        if value =? 0 then store_dc 0 b
        else if 11 <? value then ((coefs, b, pred), Fail EDcCategory)        (* l.1083-1089 *)
        else
          match receive_extend dbg b value with                              (* l.1090-1092 *)
          | Ok (Some diff, b) => store_dc diff b
          | Ok (None, b) => ((coefs, b, pred), Fail EEof)
          | Fail e => ((coefs, b, pred), Fail e)
          | Panic p => ((coefs, b, pred), Panic p)
          | UB => ((coefs, b, pred), UB)
          end
    | Fail e => ((coefs, b, pred), Fail e)
    | Panic p => ((coefs, b, pred), Panic p)
    | UB => ((coefs, b, pred), UB)
    end
  else ((coefs, b, pred), Ok tt).

(** lib.rs:1124-1165. *)
Fixpoint ac_state (dbg : bool) (fuel : nat) (t : ac_table) (low last : Z)
         (coefs : list Z) (b : biter) (eob i : Z) : left (list Z * biter * Z) :=
  match fuel with
  | O => ((coefs, b, eob), Panic PFuel)
  | S n =>
      let put (value run : Z) (b : biter) :=
        let i := i + run in
        if i <=? last then
          match unzigzag coefs i (shl16 value low) with
          | Ok coefs =>
              let i := i + 1 in
              if i <=? last then ac_state dbg n t low last coefs b eob i else ((coefs, b, eob), Ok tt)
          | Fail e => ((coefs, b, eob), Fail e)
          | Panic p => ((coefs, b, eob), Panic p)
          | UB => ((coefs, b, eob), UB)
          end
        else ((coefs, b, eob), Ok tt) in
      match decode_fast_ac dbg t b with
      | Ok (AFast value run, b) => put value run b
      | Ok (ANormal byte, b) =>
          let r := Z.shiftr byte 4 in
          let s := Z.land byte 15 in
          if s =? 0 then
            if r =? 15 then
              if i + 16 <=? last then ac_state dbg n t low last coefs b eob (i + 16)
              else ((coefs, b, eob), Ok tt)
            else
              let eob := 2 ^ r - 1 in                                        (* l.1139 *)
              if 0 <? r then
                match next_bits dbg b r with                                 (* l.1142 *)
                | Ok (Some v, b) => ((coefs, b, eob + v), Ok tt)
                | Ok (None, b) => ((coefs, b, eob), Fail EOutOfBits)
                | Fail e => ((coefs, b, eob), Fail e)
                | Panic p => ((coefs, b, eob), Panic p)
                | UB => ((coefs, b, eob), UB)
                end
              else ((coefs, b, eob), Ok tt)
          else
            match receive_extend dbg b s with                                (* l.1150-1154 *)
            | Ok (Some value, b) => put value r b
            | Ok (None, b) => ((coefs, b, eob), Fail EEof)
            | Fail e => ((coefs, b, eob), Fail e)
            | Panic p => ((coefs, b, eob), Panic p)
            | UB => ((coefs, b, eob), UB)
            end
      | Ok (AErr, b) => ((coefs, b, eob), Fail EEof)                         (* l.1157-1159 *)
      | Fail e => ((coefs, b, eob), Fail e)
      | Panic p => ((coefs, b, eob), Panic p)
      | UB => ((coefs, b, eob), UB)
      end
  end.

(** lib.rs:1061-1169 [decode_block]. *)
Definition block_state (dbg : bool) (sc : scan) (dct : base_table) (act : ac_table)
           (coefs : list Z) (b : biter) (eob pred : Z) : left (list Z * biter * Z * Z) :=
  match dc_state dbg sc dct coefs b pred with
  | ((coefs, b, pred), Ok _) =>
      let index := Z.max (s_start sc) 1 in
      let last := Z.min (s_end sc) 63 in
      if (index <=? last) && (0 <? eob) then ((coefs, b, eob - 1, pred), Ok tt)
      else if index <? last then
        let '((coefs, b, eob), r) := ac_state dbg 64 act (s_low sc) last coefs b eob index in
        ((coefs, b, eob, pred), r)
      else ((coefs, b, eob, pred), Ok tt)
  | ((coefs, b, pred), r) => ((coefs, b, eob, pred), r)
  end.

(** What [decode_row] mutates: the scratch coefficients written so far, the reader, the run
    and the predictors. *)
Definition row_st := (list (list Z) * biter * Z * list Z)%type.

(** lib.rs:1032-1055: [n] blocks of the component whose predictor is the [j]-th. *)
Fixpoint blocks_state (dbg : bool) (sc : scan) (dct : base_table) (act : ac_table) (n : nat) (j : nat)
         (st : row_st) : left row_st :=
  match n with
  | O => (st, Ok tt)
  | S m =>
      let '(coefs, b, eob, preds) := st in
      let '((c, b, eob, pred), r) := block_state dbg sc dct act zero_block b eob (nth j preds 0) in
      let st := (coefs ++ [c], b, eob, upd preds j pred) in
      match r with
      | Ok _ => blocks_state dbg sc dct act m j st
      | _ => (st, r)
      end
  end.

(** lib.rs:1018-1056. *)
Fixpoint comps_state (dbg : bool) (d : decoder) (sc : scan) (cs : list component) (hs : list scan_header)
         (j : nat) (avail : nat) (st : row_st) : left row_st :=
  let '(_, _, _, preds) := st in
  match cs, hs, skipn j preds with
  | c :: cs, h :: hs, _ :: _ =>
      match (let* dct := index (d_dc d) (h_dc h) in
             let* dct := match dct with Some t => Ok t | None => Panic PMissing end in
             let* act := index (d_ac d) (h_ac h) in
             let* act := match act with Some t => Ok t | None => Panic PMissing end in Ok (dct, act)) with
      | Ok (dct, act) =>
          let n := Nat.min (Z.to_nat (c_blocks_per_mcu c)) avail in
          match blocks_state dbg sc dct act n j st with
          | (st, Ok _) => comps_state dbg d sc cs hs (S j) (avail - n) st
          | x => x
          end
      | Fail e => (st, Fail e)
      | Panic p => (st, Panic p)
      | UB => (st, UB)
      end
  | _, _, _ => (st, Ok tt)
  end.

(** lib.rs:994-1059 [decode_row]: copies of the predictors and the run are saved and the
    stream is checkpointed (l.1003-1005, biterator.rs:147-149); if a block returns an error
    they are put back (l.1046-1052, biterator.rs:150-160). *)
Definition row_state (dbg : bool) (d : decoder) (b : biter) : left (decoder * biter) :=
  let checkpoint := (bi_input b, bi_bits b, bi_count b) in
  let dc_predictors := ss_preds (d_ss d) in
  let eob_run := ss_eob (d_ss d) in
  match d_scan d, d_frame d with
  | Some sc, Some fr =>
      let '((coefs, b1, eob, preds), r) :=
        comps_state dbg d sc (f_components fr) (s_headers sc) 0 MAX_BLOCKS ([], b, eob_run, dc_predictors) in
      let s := d_ss d in
      let coefs := coefs ++ repeat zero_block (MAX_BLOCKS - length coefs) in
      match r with
      | Fail e =>
          let '(i, bits, count) := checkpoint in
          ((set_ss d (mkSS coefs dc_predictors eob_run (ss_rst s) (ss_left s) (ss_results s)),
            mkBiter i bits count), Fail e)
      | _ => ((set_ss d (mkSS coefs preds eob (ss_rst s) (ss_left s) (ss_results s)), b1), r)
      end
  | _, _ => ((d, b), Panic PUnwrap)
  end.
