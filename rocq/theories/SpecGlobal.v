(** Histories of decoders and streaming codecs, and where a frame header sits in a file. *)
From Verif Require Import Base SpecBits SpecMarker SpecSegments Biterator Marker Types Decode.

(** Decoders a user can hold: a fresh one, or one that has been used on any byte string
    (whatever came out: an image, an error or a caught panic). *)
Inductive reachable (dbg rayon : bool) : decoder -> Prop :=
| fresh : reachable dbg rayon decoder_default
| reused : forall d input, reachable dbg rayon d -> bytes input -> reachable dbg rayon (fst (decode dbg rayon d input)).

(** A codec with the bytes buffered in front of it: more bytes may arrive at any time, and
    the codec may be called at any time, until a call fails (an error ends a framed stream, and
    what a call after it does depends on the state the parser library keeps). *)
Inductive streaming (dbg rerun rayon : bool) : codec -> list Z -> Prop :=
| stream_new : streaming dbg rerun rayon codec_new []
| stream_more : forall k buf more, streaming dbg rerun rayon k buf -> bytes more -> streaming dbg rerun rayon k (buf ++ more)
| stream_call : forall k buf k' buf' r, streaming dbg rerun rayon k buf -> codec_decode dbg rerun rayon k buf = (k', buf', Ok r) ->
    streaming dbg rerun rayon k' buf'.

(** The input contains the frame header (lines, samples, components): a marker SOF0..SOF2,
    two length bytes, then the header. *)
Definition header_in (input : list Z) (lines samples : Z) (cs : list comp_spec) : Prop :=
  exists pre m l1 l0 precision post, 0 <= m <= 2 /\
    input = pre ++ [255; 0xC0 + m; l1; l0] ++ sof_bytes precision lines samples cs ++ post.

(** One transition of the parser from configuration [c] to [c']. *)
Definition moves (dbg rerun rayon : bool) (c' c : pc * decoder * biter) : Prop :=
  let '(p, d, b) := c in let '(p', d', b') := c' in step dbg rerun rayon p d b = (d', b', SNext p').
(** Configurations that occur when a decoder or a codec is called. *)
Inductive occurs (dbg rerun rayon : bool) : pc * decoder * biter -> Prop :=
| occurs_decode : forall d input, reachable dbg rayon d -> bytes input -> occurs dbg rerun rayon (PcMarker, d, mkBiter input 0 0)
| occurs_codec : forall k buf, streaming dbg rerun rayon k buf ->
    occurs dbg rerun rayon (k_pc k, k_dec k, mkBiter buf (k_bits k) (k_count k))
| occurs_moves : forall c c', occurs dbg rerun rayon c -> moves dbg rerun rayon c' c -> occurs dbg rerun rayon c'.
