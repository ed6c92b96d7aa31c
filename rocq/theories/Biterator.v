(** Model of src/biterator.rs: the bit reader over entropy-coded bytes. *)
From Verif Require Import Base.

(** biterator.rs:8-14 [Biterator]: the inner stream is the list of bytes not yet
    consumed, [bits] a u64 and [count] a u8. *)
Record biter := mkBiter { bi_input : list Z; bi_bits : Z; bi_count : Z }.

(** biterator.rs:16-19 [Biterator::new]. *)
Definition biter_new (input : list Z) : biter := mkBiter input 0 0.

(** biterator.rs:49-52 [Biterator::reset] (not the [ResetStream] one). *)
Definition biter_reset (b : biter) : biter := mkBiter (bi_input b) 0 0.

(** biterator.rs:85 [self.bits << 8 | u64::from(b)]: a u64 shift drops the top bits. *)
Definition push_byte (bits b : Z) : Z := Z.lor (wrap 64 (Z.shiftl bits 8)) b.

(** biterator.rs:94 [self.bits &= !0xFF]. *)
Definition clear_low_byte (bits : Z) : Z := Z.land bits (Z.lxor (2 ^ 64 - 1) 255).

(** biterator.rs:97-100: the loop padding with zero bytes.  At most 8 rounds are
    needed since [count] grows by 8 from a value >= 0 until it exceeds 56. *)
Fixpoint pad_zeros (fuel : nat) (bits count : Z) : Z * Z :=
  match fuel with
  | O => (bits, count)
  | S f => if count <=? 56 then pad_zeros f (wrap 64 (Z.shiftl bits 8)) (count + 8)
           else (bits, count)
  end.

(** biterator.rs:91-93: [for _ in (checkpoint.2..self.count - 8).step_by(8) { uncons()? }],
    i.e. ceil((count - 8 - checkpoint_count) / 8) single-byte reads. *)
Fixpoint skip_bytes (n : nat) (input : list Z) : option (list Z) :=
  match n with
  | O => Some input
  | S m => match input with [] => None | _ :: r => skip_bytes m r end
  end.
Definition reskip (cp_count count : Z) : nat := Z.to_nat ((count - 8 - cp_count + 7) / 8).

(** biterator.rs:81-106 [fill_bits].  [cp_input], [cp_count] are the checkpoint taken
    on entry (l.82).  Every iteration consumes a byte, so the loop is a recursion over
    the input.  The boolean is [true] for [Ok(())]; on [Err(())] the reader keeps what
    was read so far, as in the code. *)
Fixpoint fill_loop (cp_input : list Z) (cp_count : Z)
         (input : list Z) (bits count : Z) {struct input} : bool * biter :=
  if count <=? 56 then
    match input with
    | [] => (false, mkBiter [] bits count)                                (* l.84 *)
    | b :: rest =>
        let bits := push_byte bits b in                                   (* l.85 *)
        let count := count + 8 in                                         (* l.86 *)
        if b =? 255 then                                                  (* l.88 *)
          match rest with
          | [] => (false, mkBiter [] bits count)                          (* l.89 *)
          | b2 :: rest2 =>
              if b2 =? 0 then fill_loop cp_input cp_count rest2 bits count
              else                                                        (* l.90-101 *)
                match skip_bytes (reskip cp_count count) cp_input with
                | None => (false, mkBiter [] bits count)
                | Some input' =>
                    let '(bits', count') := pad_zeros 8 (clear_low_byte bits) count in
                    (true, mkBiter input' bits' count')
                end
          end
        else fill_loop cp_input cp_count rest bits count
    end
  else (true, mkBiter input bits count).                                  (* l.105 *)

Definition fill_bits (b : biter) : bool * biter :=
  fill_loop (bi_input b) (bi_count b) (bi_input b) (bi_bits b) (bi_count b).

(** biterator.rs:63-66 [consume_bits]. *)
Definition consume_bits (dbg : bool) (b : biter) (n : Z) : out biter :=
  let* _ := debug_assert dbg (n <=? bi_count b) in
  let* c := usub dbg 8 (bi_count b) n in
  Ok (mkBiter (bi_input b) (bi_bits b) c).

(** Common part of biterator.rs:71 and 78: [(bits >> (count - n)) & ((1 << n) - 1)].
    A u64 shift by 64 or more panics in a debug build and is taken modulo 64 in release. *)
Definition peek_raw (dbg : bool) (b : biter) (n : Z) : out Z :=
  let* _ := debug_assert dbg (n <=? bi_count b) in
  let* sh := usub dbg 8 (bi_count b) n in
  let* sh := if 64 <=? sh then (if dbg then Panic POverflow else Ok (sh mod 64)) else Ok sh in
  Ok (Z.land (Z.shiftr (bi_bits b) sh) (Z.shiftl 1 n - 1)).

(** biterator.rs:68-72 [peek_bits]: the result is cast to u16. *)
Definition peek_bits (dbg : bool) (b : biter) (n : Z) : out Z :=
  let* v := peek_raw dbg b n in Ok (wrap 16 v).

(** biterator.rs:74-79 [peek_bits_u8]. *)
Definition peek_bits_u8 (dbg : bool) (b : biter) (n : Z) : out Z :=
  let* _ := debug_assert dbg (n <=? 8) in
  let* v := peek_raw dbg b n in Ok (wrap 8 v).

(** Result of reading from the bit reader: [None] is [Err(())] of the code. *)
Definition bitres (A : Type) := out (option A * biter).

(** biterator.rs:54-61 [next_bits]. *)
Definition next_bits (dbg : bool) (b : biter) (n : Z) : bitres Z :=
  let '(ok, b) := if bi_count b <? n then fill_bits b else (true, b) in
  if ok then
    let* v := peek_bits dbg b n in
    let* b := consume_bits dbg b n in
    Ok (Some v, b)
  else Ok (None, b).

(** biterator.rs:109-114 [extend].  [vt = 1 << (t - 1)] is an i32; the subtraction
    [t - 1] is on u16, the mask [((-1i32 as u32) << t) + 1] on u32, the final cast
    truncates to i16.  [(v - vt) >> 31] is an arithmetic shift. *)
Definition extend (v t : Z) : Z :=
  let vt := Z.shiftl 1 (t - 1) in
  let mask := Z.land (wrap 32 (Z.shiftr (v - vt) 31))
                     (wrap 32 (wrap 32 (Z.shiftl (2 ^ 32 - 1) t) + 1)) in
  w16 (w32 (v + w32 mask)).

(** biterator.rs:44-47 [receive_extend]. *)
Definition receive_extend (dbg : bool) (b : biter) (n : Z) : bitres Z :=
  let* (v, b) := next_bits dbg b n in
  match v with
  | Some v => Ok (Some (extend v n), b)
  | None => Ok (None, b)
  end.
