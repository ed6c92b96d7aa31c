(** Model of the loops that drive the parser: [ReadDecoder::decode] over a reader whose reads
    may fail, and a framed stream that carries several images (src/lib.rs). *)
From Verif Require Import Base Biterator Types Decode.

(** What one call of a [decode] method answers. *)
Inductive answer :=
| AImage (img : list Z)
| AError (e : error)       (* the parser or [upsample] reports an error *)
| AIo                      (* the reader's I/O error, or bytes left at the end of a framed stream *)
| APanic (p : panic)
| AUB.

(** One call of the underlying [read]: some bytes, or an I/O error.  When the list of events
    has ended, [read] returns 0 bytes. *)
Inductive event := Data (c : list Z) | IoError.

(** lib.rs:1633-1662 [ReadDecoder::decode]: [combine::decode!] parses what is buffered and, as
    long as the parser asks for more, reads and parses again.  An I/O error is returned at once
    (l.1659); parser state, buffer and bit buffer stay in the [ReadDecoder].  A read of 0 bytes
    is the end of the input.  Result: parser, buffer and reader after the call, and the answer. *)
Fixpoint reader_call (dbg rerun rayon : bool) (k : codec) (buf : list Z) (evs : list event)
  : codec * list Z * list event * answer :=
  match codec_decode dbg rerun rayon k buf with
  | (k', buf', Ok None) =>
      match evs with
      | [] => (k', buf', [], AError EEof)
      | IoError :: r => (k', buf', r, AIo)
      | Data c :: r => reader_call dbg rerun rayon k' (buf' ++ c) r
      end
  | (k', buf', Ok (Some img)) => (k', buf', evs, AImage img)
  | (k', buf', Fail e) => (k', buf', evs, AError e)
  | (k', buf', Panic p) => (k', buf', evs, APanic p)
  | (k', buf', UB) => (k', buf', evs, AUB)
  end.

(** A caller that calls [decode] again after every I/O error, and the answers it gets. *)
Inductive session (dbg rerun rayon : bool) : codec -> list Z -> list event -> list answer -> Prop :=
| session_last : forall k buf evs k' buf' evs' a,
    reader_call dbg rerun rayon k buf evs = (k', buf', evs', a) -> a <> AIo ->
    session dbg rerun rayon k buf evs [a]
| session_again : forall k buf evs k' buf' evs' l,
    reader_call dbg rerun rayon k buf evs = (k', buf', evs', AIo) ->
    session dbg rerun rayon k' buf' evs' l -> session dbg rerun rayon k buf evs (AIo :: l).

(** A framed stream over [DecoderCodec] (lib.rs:1571-1607; the loop is tokio-util's
    [FramedRead]): the codec is called until it asks for more, then the next chunk is appended
    to the buffer.  An error ends the stream.  At the end of the stream, bytes left in the
    buffer are an error ([decode_eof]).  [next] is what happens to the codec after an image: the
    identity in the code as it is. *)
Inductive frames (dbg rerun rayon : bool) (next : codec -> codec) : codec -> list Z -> list (list Z) -> list answer -> Prop :=
| frames_end : forall k buf k', codec_decode dbg rerun rayon k buf = (k', [], Ok None) ->
    frames dbg rerun rayon next k buf [] []
| frames_left : forall k buf k' buf', codec_decode dbg rerun rayon k buf = (k', buf', Ok None) -> buf' <> [] ->
    frames dbg rerun rayon next k buf [] [AIo]
| frames_more : forall k buf k' buf' c cs l, codec_decode dbg rerun rayon k buf = (k', buf', Ok None) ->
    frames dbg rerun rayon next k' (buf' ++ c) cs l -> frames dbg rerun rayon next k buf (c :: cs) l
| frames_image : forall k buf k' buf' cs img l, codec_decode dbg rerun rayon k buf = (k', buf', Ok (Some img)) ->
    frames dbg rerun rayon next (next k') buf' cs l -> frames dbg rerun rayon next k buf cs (AImage img :: l)
| frames_error : forall k buf k' buf' cs e, codec_decode dbg rerun rayon k buf = (k', buf', Fail e) ->
    frames dbg rerun rayon next k buf cs [AError e]
| frames_panic : forall k buf k' buf' cs p, codec_decode dbg rerun rayon k buf = (k', buf', Panic p) ->
    frames dbg rerun rayon next k buf cs [APanic p]
| frames_ub : forall k buf k' buf' cs, codec_decode dbg rerun rayon k buf = (k', buf', UB) ->
    frames dbg rerun rayon next k buf cs [AUB].
