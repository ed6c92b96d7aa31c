(** Configurations passed through while decoding, and the two restrictions under which
    decoding in pieces is proved to agree with decoding at once. *)
From Verif Require Import Base SpecBits Biterator Huffman Types Decode SpecGlobal.

(** The configurations of the parser between two transitions, from [c] on. *)
Inductive from (dbg rerun rayon : bool) (c : pc * decoder * biter) : pc * decoder * biter -> Prop :=
| from_here : from dbg rerun rayon c c
| from_next : forall c1 c2, from dbg rerun rayon c c1 -> moves dbg rerun rayon c2 c1 -> from dbg rerun rayon c c2.

(** Decoding [input] with a fresh decoder passes through decoder state [d]. *)
Definition passes (dbg rayon : bool) (input : list Z) (d : decoder) : Prop :=
  exists p b, from dbg false rayon (PcMarker, decoder_default, biter_new input) (p, d, b).

(** A symbol rrrr0000 with 0 < rrrr < 15: an end-of-band run EOB1..EOB14, which exists only
    in progressive files. *)
Definition eob_run (v : Z) : Prop := Z.land v 15 = 0 /\ 0 < Z.shiftr v 4 /\ Z.shiftr v 4 <> 15.
(** Some AC table of the decoder has such a symbol. *)
Definition has_eob_runs (d : decoder) : Prop :=
  exists dbg t b v b', In (Some t) (d_ac d) /\ decode_fast_ac dbg t b = Ok (ANormal v, b') /\ eob_run v.

(** A file of the sequential kind: no end-of-band runs. *)
Definition no_eob_runs (dbg rayon : bool) (input : list Z) : Prop :=
  forall d, passes dbg rayon input d -> ~ has_eob_runs d.
(** A file without restart intervals. *)
Definition no_restarts (dbg rayon : bool) (input : list Z) : Prop :=
  forall d, passes dbg rayon input d -> d_restart d = 0.

(** A codec, the bytes buffered in front of it, and all the bytes that have arrived so far; no
    call has failed yet. *)
Inductive history (dbg rerun rayon : bool) : codec -> list Z -> list Z -> Prop :=
| history_new : history dbg rerun rayon codec_new [] []
| history_more : forall k buf got more, history dbg rerun rayon k buf got -> bytes more ->
    history dbg rerun rayon k (buf ++ more) (got ++ more)
| history_call : forall k buf got k' buf' r, history dbg rerun rayon k buf got ->
    codec_decode dbg rerun rayon k buf = (k', buf', Ok r) -> history dbg rerun rayon k' buf' got.
