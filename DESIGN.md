# A Rocq model of combine-jpeg

Everything below refers to the pinned source in `/repo`.  The model lives in
`rocq/theories`; every definition cites the file and lines it models.

## How the code is modelled

* One executable, total Gallina decoder (`Decoder::decode`, and the codec on top of
  the same functions).  Bytes and machine integers are `Z` with the wrap-around
  written explicitly where the code can wrap; slices and arrays are lists.
* Outcomes are data: `Ok`, `Fail e` (a `Result::Err` / parse error), `Panic p`
  (any Rust panic: index, unwrap, assert, overflow in a debug build) and `UB`
  (an out-of-bounds `get_unchecked` or a read of an uninitialised plane byte).
* A boolean `dbg` selects the build profile: with `dbg = true` integer overflow and
  `debug_assert!` panic, with `dbg = false` they wrap / vanish.  Theorems quantify
  over it unless they say otherwise.
* `f32` arithmetic is `Coq.Floats.SpecFloat` at precision 24 / emax 128 (purely
  computational, no axioms).
* Plane buffers created with `Vec::set_len` hold `option` samples; `None` is
  uninitialised memory.
* The `combine` crate is not in the repository.  Its combinators are modelled by their
  documented contract (sequencing, `attempt`, `repeat_skip_until` = "test the end
  parser first, do not consume it", `take`, `take_until_byte`, `take_while1`,
  `sep_by1`, `count_min_max`, `then_partial`, `map_input`, `factory`).  Resumption of
  partial parsers is modelled at the granularity marker / segment / MCU / restart
  marker: inside one such unit a resumed parser behaves as if the unit were parsed
  from its beginning.
* Not modelled: error positions and message texts (errors are constructors, one per
  message), logging, `fmt`, allocation failure, performance, the thread pool of rayon
  (only the value each task computes).

## Plan per property

| id | plan |
|----|------|
| C01 | invariant over every reachable decoder state; `UB` is unreachable from any state satisfying it |
| C02 | fuel used by the model is never exhausted, for any input |
| C03 | direct from the shape of `upsample`, with invariant for byte range |
| C04 | simulation between `dbg = true` and `dbg = false` |
| C05-C07 | prefix monotonicity of every unit (marker, segment, MCU, restart), then induction over chunks; for encoded files the restrictions follow from the segments because the states passed through are those after each segment |
| C08 | direct over all failure points of `decode_row` |
| C09 | relational invariant between fresh and used decoder; refuted in general; for series of encoded files the exact effect of what is left over (`C09_series`, SpecReuse.v) |
| C10-C13 | abstraction of the reader to a list of bits; refill lemma |
| C14-C18 | independent canonical-code specification (code of k-th symbol), proofs over all tables |
| C19-C21 | encoder specification producing bits; decode of the encoding by induction over the zigzag list |
| C22 | counting invariant over the MCU loop; the interval in force from the header walk, 0 for a fresh decoder |
| C23-C31 | parsers against independent grammars |
| C32 | index arithmetic over all geometries |
| C33, C34, C46 | exact integer analysis of the kernel with `w32` wrap; real-number comparison |
| C35, C36 | linear bounds; finite sweeps lifted by `forallb_forall` |
| C37-C41 | list-level analysis of each upsampler |
| C42-C44, C47 | refutations by computed witnesses plus positive theorems on well-formed input |
| C45 | composition of the above through a serialiser specification; `C45_every_file` gives the exact answer (image, error or panic) for every size, sampling and component count through the separate relation in SpecAnswer.v; `C45_empty_file` does so for images without lines or columns |
| C48 | corollary of prefix monotonicity |
| C49 | relation between the chunks of a stream and the answers of a framed reader; refutation with two small files, proof for a new codec per image; what the same codec answers to the next file, by the reference reading of SpecCode.v with the left-over bits in front (SpecNext.v) |
| C50 | relation between reader events (data or I/O error) and the answers of repeated `decode` calls; from C05 |
| C51 | one step of the marker parser from any configuration between segments |
| C52 | the planes of a decoder survive; refuted for every image; for a fresh decoder the planes stay empty without a scan; once a scan is read, the earlier pixels do not matter (step-by-step comparison of two decoders that differ in pixels) |
| C53, C54 | every step of the decoder commutes with forgetting the SOF number (0 or 1) and the precision |
| C55, C56 | the remaining functions of idct.rs (not used by the decoder, which always passes scale 8); integer bounds against the 4- and 2-point transforms |
| C57 | the causes are stated as properties of the configurations a call goes through (at a segment, at a scan, at EOI); invariants: the decoder state of C13, the markers of the frame, and the state at the first MCU of a scan; every remaining panic site is shown unreachable without a cause; the first list of causes is also shown sufficient |
| C58 | relation between the blocks of a band, their bits with EOBn runs, and the open run; induction over the blocks, with the generalised AC loop; then over components, MCUs and restart intervals of a scan (`scan_band_data`), as for C21 |
| C59 | a family of 146-byte files, one for each size, that satisfy `encodes` (SpecFile.v) with data that ended before its first bit; the answer then follows from C45 |
| C60 | SpecDamage.v gives scan data whose intervals start with the code of the intact MCUs and go on with arbitrary stuffed bytes (`scan_part`); DamageP.v shows that the reader never passes the next restart marker whatever it decodes, that the marker search then finds it, and that the predictors, run and bits are reset there; DamageP2.v carries this to whole files and compares with the undamaged file; for pixels with the argument of C76 |
| C61 | No new model: two files as in SpecFile.v that share coefficients, quantisation values, size, sampling and transform. TransP.v: everything the answer of C45 depends on (`view`) is the same for both, so the exact answers agree. Props_Transcode.v re-encodes the C45 example with another Huffman table, no restarts, SOF1 and other slots. |
| C62 | SpecExact.v: spectrum of a block, exact samples (SpecDct.v), real-valued interpolation and BT.601. ExactP.v composes C45 (planes are inverse transforms of the coefficients) with C46 (fixed point against real transform) and bounds the rounding of the upsampler and of the colour tables. |
| C63 | SpecCode.v is a reference decoder of sequential scan data on lists of bits (canonical codes, EXTEND, run lengths, EOB runs, DC prediction, MCUs, restart intervals), total and executable. CodeP.v proves that the bit reader, the lookup tables and the combined code/value tables refine it block by block, CodeP2.v carries this through MCUs, restart intervals and scans (including the cases in which the reference fails), CodeP3.v to whole files with C42/C60's account of the rest of the file; CodeP4.v shows that the reference reads every encoding of SpecScan.v |
| C64 | ProgressiveP.v: the header segments are stepped through as in C45 from any place between segments, then the scan header of a frame with marker SOF2 reaches `unimplemented!` (lib.rs:784). Refuted for all progressive images |
| C65 | FlatP.v: a flat component makes every in-range sample of its plane `dc_sample` (C33_flat through `plane_from`); linear interpolation of equal samples is the sample, repetition shows it or 0 (columns left out, C39); then the colour conversion of C35. Refuted for widths that are no multiple of a repetition factor |
| C66 | FlatP.v: zero chroma blocks show 128 (`dc_sample 0 q`), for which the fixed-point conversion returns the luma value three times; a left-out column has a chroma sample 0 and is not grey for any luma value, so the condition is exact |
| C67 | HeaderP.v: the invariant of C03_image_header (GlobalP.v `traced`: the frame is the old one or that of a header in the input) over all transitions; for well-formed segments the state after them (FileP.v `header_run`) and the invariant for the rest of the input, which holds no frame marker |
| C68 | EditP.v: the inverse transform is a function of the products and of which coefficients are zero; with non-zero quantisation values the second follows from the first; then the planes and the images are equal as in C61 |
| C69 | EditP2.v: a sample of a plane is the sample of its block (`plane_from`), whose number in the scan moves by whole MCU rows and columns; the value drawn for a component moves with it wherever no clamped neighbour at the edge of the part is involved |
| C70 | SpecEncoder.v: an executable encoder (fixed Huffman tables, padding with ones, byte stuffing, restart markers; not part of the modelled program); EncoderP.v: its file satisfies `encodes` for every image in range, so that the results about encoded files (C45, C61) apply to it |
| C71 | SpecMosaic.v: an image with one block per tile and component, DC only, quantised by 8; MosaicP.v: without subsampling a pixel is the sample of its block, and such a block is constant (C33) |
| C72 | SpecFdct.v: forward DCT and quantisation over the reals; FdctP.v: the transform is orthogonal, so it inverts the inverse transform and preserves energy (Parseval), which bounds the quantisation error of a sample by Cauchy-Schwarz; FdctP2.v: together with the accuracy of the decoder (C46, C62) this bounds the error of each byte; PictureP.v: rounded blocks of any picture are an image the encoder of C70 accepts; SpecPlanes.v, PlanesP.v, PlanesP2.v: the same for any sampling factors and tables, against the planes interpolated without rounding |
| C73 | FlipP.v: the matrix of the one-dimensional transform is symmetric up to the sign of odd frequencies, modulo 2^32, and the rounding of the first pass does not see the difference, so the rows of a block are reversed exactly; from there by `plane_from` and the answer of the file as in C69; FlipP2.v: turned images can be encoded (C70). Left and right, and vertical factors of 2: counterexamples; FlipP3.v: left and right up to the effect of one unit in each odd column after the first pass, less than one after the second; MirrorP.v: the same for any sampling factors, since the weights of the upsampler are symmetric, and mirrored images can be encoded |
| C74 | ChannelP.v: both files by the answer of SpecAnswer.v; the planes of unchanged components are equal (C68 per component), what is drawn depends on the plane only, and the colour formulas show which byte uses which component |
| C75 | ChannelP.v: adding 8 n to the DC coefficient adds 32 n to the first column after the first pass and n after the second, without rounding; interpolation is monotone and cannot enlarge the difference; a pixel without a byte 0 (255) has a luminance above 0 (below 255) |
| C76 | LocalP.v: a sample depends on one MCU by `plane_from`; for each axis, the samples that interpolation uses lie in the MCU of a pixel at most one away (the row asked for is a multiple of the largest vertical factor, so only the row above matters); the rest as in C74 |
| C77 | TransposeP.v: both orders of the passes approximate the same double sum; the error of the first pass is at most a half per column, so the second passes differ by less than one step; planes by exchanging the indices in `plane_from`; every image is transposed by the function `transpose` (SpecTranspose.v) |
| C78 | WaitP.v: with tables whose DC symbols are at most 11 and without end-of-band runs the only error of an MCU is the end of the input, so the scan ends in `ScNeed`; a run that ends so is followed through all cuts (`feed_need`), and the buffer is the input from the damaged MCU on. Where the reference of SpecCode.v finds the MCUs the configurations up to EOI are followed as for C05_files. WaitP2.v, for any data: in front of a marker that ends the data no fill of the bit buffer reaches the bytes behind it, so the scan ends in the same way whatever follows the file, and it ends in a wait, at EOI or in an error that is not the end of the input |
| C79 | BufferP.v: one refill reads at most 16 bytes, a code at most two refills, a block at most 65 codes, an MCU at most 10 blocks; with that many bytes in the buffer the outcome of an MCU does not depend on what follows. So a codec whose first step waits with more than 65536 bytes waits for a marker or for ever; an input that is answered leaves only the former (`feed_settled`) |
| C80 | FinalP.v: every step that stops without waiting stops in the same way with more input behind (`step_ext` of StreamP.v), by induction over the run; the only errors of drawing the image are the two named |
| C81 | SpecMemory.v, MemoryP.v: invariant over all steps: the planes and the planes under construction fit a frame that came from the input (`traced` of GlobalP.v); a scan keeps the lengths of its planes, and handing them over moves samples without adding any; MemoryP2.v: the same invariant over the calls of a codec and the bytes that have arrived, where a step behind a marker SOF0..SOF2 is the only one that takes a frame; MemoryCase.v: a header for any size |
| C82 | ReaderP.v: induction over the events of the source; the reads used, each after an answer that asked for more; suffix invariant of the codec (GlobalP.v); the last read used is the one with the last byte of the file by C06 |
| C83 | SpecRepeat.v, ReaderP.v: induction over the derivation of the framed stream; totality because every image uses up the two bytes of its end-of-image marker |
| C84 | SpecNegative.v, NegativeP.v: after the first pass the opposite up to 1 (ties), so the raw samples add up to 255..257 after the second; limiting keeps the bounds, interpolation widens them by 1, the colour conversion by its rounding; refuted for blocks outside the table of clamped values and for left-out columns |
| C85 | SpecSum.v, SumP.v: rounding is additive up to 1 in each column of the first pass, which the second turns into less than a half, so raw samples add up within 1; interpolation within 2; the colour conversion within 4 or 7; refuted for left-out columns |
| C86 | For each kind of segment the contents the format allows (SpecMalformed.v), stated with the byte layouts of SpecSegments.v. The step that reads the segment does not depend on what follows (C24); by cases over the kinds it goes on exactly for well-formed contents, and otherwise stops with an error or one of the panics of C57. The theorem for whole inputs follows by running the decoder up to the segment. |
| C87 | The distance of two blocks is the sum of the absolute differences of their dequantised coefficients (SpecNearby.v). The entries of the transform's matrix are at most 5683, so each of the two passes magnifies a difference by at most 5683/1024 and 5683/131072, below 1/4 together, plus rounding; limiting to 0..255, the weighted means of upsampling and the inversion do not magnify it, the colour conversion by less than three. The files through C74's comparison of two files. C87_refuted: false outside the range of C34. |
| C88 | In the integer matrix of the transform every column but the first adds up to zero, so over the 64 samples all coefficients but the DC one cancel exactly in both passes; what remains is the rounding of the 64 samples (at most 32) and of the eight values of the first column (at most 1). `square_sum` (SpecMean.v) adds the bytes of the decoded pixels; which block a square shows is `q_at` (SpecFile.v). C88_dc_only compares with the image that has only its DC coefficients (`dc_only`, SpecThumb.v), through the exact value of flat blocks (C33). |
| C89 | `pick` (SpecOrder.v) reads a list in another order. The largest factors do not depend on the order, the plane of a component only on its blocks, its factors and the largest ones, so the planes of the two files agree (uniqueness of `plane_from`); the conditions of the exact answer (C45) are for all components alike. |
| C90 | `block_at` (SpecRatio.v) numbers the blocks of a component by rows and columns, `same_blocks` compares those that have a sample inside the image. Ratios and used sizes of a component depend only on the ratio of its factors; interpolation and repetition read only used samples, so the strides of the two planes do not matter. C90_refuted: the rows shown depend on the largest vertical factor itself (C40). |
| C91 | For each component either the argument of C90 or the exact value drawn for flat components (C65), whatever the factors. Components with columns that are left out (C39) are excluded by `full_width`. C91_refuted: the luma rows shown depend on the largest vertical factor (C40). |
| C92 | the decoder after a run of header segments is a function of the decoder before it and the last definitions (`SpecDefine.v`); permutations by induction |
| C93 | simulation between the decoder without and with the further tables (the relation of C09, with equal planes), step by step over arbitrary following bytes |
| C94 | both inputs bring the decoder to the same state before the same bytes (as for comments, C44) |
| C95 | such files are a series in the sense of C09, since a file overrides what it defines itself; then the answer is that of the file alone by C61. A DRI segment behind the scan and an earlier Adobe segment refute the general claim |
| C96 | the planes agree inside the extent of each component, and what is drawn uses no other samples (as for C87 with distance 0) |
| C97 | the plain reading of C63 finds the same MCUs in the longer data |
| C98 | the plain reading of C63 depends only on the bits with zeros behind them; without the condition on 0xFF: counterexample |
| C99 | what the plain reading of C63 finds has the shape and range the encoder of C70 needs (induction over the reading); then C63 for both files |

No property is left out as inexpressible; the parts of C05/C07 that live in tokio and
`std::io` (who calls `decode` and when) are modelled as an arbitrary sequence of chunks,
and for C41 the rayon schedule is irrelevant because each task writes its own lines.

## Layout of the development

| kind | files |
|------|-------|
| model (executable Gallina, no proofs) | `Base`, `F32`, `Clamp`, `Biterator`, `Marker`, `Huffman`, `Idct`, `Color`, `Upsampler`, `Types`, `Parsers`, `Decode`; `RowState` (the stateful version of one function), `Rayon` (the parallel loop), `IdctSmall` (the reduced transforms), `Framed` (the codec behind a framed reader) |
| specifications, independent of the model's helpers | `Spec*.v`, `Readers` (client programs of the bit reader) |
| proofs | `*P.v`, `*P2.v`, `*P3.v`, `IdctReal`, `Tactics` |
| theorems, one section per property, each closed by `exact lemma` with `Print Assumptions` beneath, and an `Example` showing that the hypotheses are met | `Props_*.v` |
| concrete files for the examples | `Samples` |
| tests of the model | `Images`, `Validation`: the model decodes the three images of `/repo/tests/images` to the pixels `/repo/tests/test.rs` expects |

`MANIFEST.json` is generated from the theorem names in `Props_*.v` and the notes in
`tools/claims.json` by `tools/manifest.py`.

## Trusted base

* The kernel of Coq 8.16.1, including its `vm_compute` machine (used for finite facts:
  table entries, constants of the inverse DCT, the examples).  `coqchk` re-checks the
  compiled files without the virtual machine.
* `Print Assumptions` (printed under every theorem when `Props_*.v` is compiled):
  * every theorem outside C46, C62 and C72: *Closed under the global context*;
  * `C46_accuracy`, `C46_within_one` and `C46_no_overflow` in `Props_Idct.v` and the theorems
    of `Props_Exact.v` (C62) and `Props_Picture.v` and `Props_Planes.v` (C72) speak about real numbers and use the axioms of the standard library's `Reals`:
    `ClassicalDedekindReals.sig_forall_dec`, `ClassicalDedekindReals.sig_not_dec` and
    `FunctionalExtensionality.functional_extensionality_dep`.
* The checker that lists every axiom *loaded* (used or not) also reports
  `Classical_Prop.classic`, the `Coq.Reals.Rdefinitions.RbaseSymbolsImpl` and `RinvImpl`
  constants and `Coq.ssr.ssrunder.Under_rel`; they come with the standard library files
  imported by the `Reals` library and no theorem depends on them beyond the list above.
* No axiom, parameter, functor or module type of our own; no kernel check is switched off.
* The translation from Rust to Gallina, which is by hand.  It is checked in two ways: the
  model is run on the repository's test images (`Validation`), and the theorems are run
  against deliberately wrong models (`seeded/LOG.jsonl`).

## What is modelled

Every function of `src/` that runs when an image is decoded:

| file | modelled |
|------|----------|
| `biterator.rs` | the whole reader: refill (with the marker case and its reset), peek, consume, extend, reset, checkpoint |
| `marker.rs` | `marker()` and all codes |
| `huffman.rs` | table construction (`huffsize`, code assignment, 8-bit lookup, `maxcode`/`delta`), `AcTable`, `decode`, `decode_inner`, `decode_fast_ac` |
| `idct.rs` | all block transforms (8x8, and the reduced 4x4, 2x2, 1x1), `choose_idct_size`, with `Wrapping<i32>` arithmetic and the f32 constants |
| `clamp.rs`, `color_conversion.rs` | tables, conversions, the choice of the function |
| `upsampler.rs` | all five upsamplers and their selection, line buffers included |
| `lib.rs` | `segment`, `sof`, `huffman_table`, `dqt`, `dri`, `sos_segment`, `app_adobe`, `sos`, `dequantize`, `decode_row`, `decode_block`, `decode_scan`, `restart_parser`, `decode_parser`, `do_segment`, `upsample`, `Decoder::decode`, `decode`, `DecoderCodec`, `ReadDecoder` |

Not modelled: texts and positions of error messages (one constructor per message), logging,
`Display`/`Debug`, allocation failure, running time, the test modules, `benches/`.  In
`stream.rs` the newtype that forwards to the inner stream is transparent in the model.

## Assumptions about code outside the repository

The `combine` parser library, `tokio-util`, `rayon`, `arrayvec` and `std` are not in the
repository.  The model relies on these parts of their documented behaviour:

* `repeat_skip_until(p, end)` tries `end` first, restores the input when `end` fails
  without having succeeded, then runs `p`.
* `take_until_byte`, `take_while1`, `take` and numeric parsers leave the input where it was
  when a partial stream ends inside them; so `marker()` and `segment()` are retried from
  their first byte.
* `combine::stream::decode` answers `Ok((None, consumed))` when the parser reports the end
  of a partial stream, and keeps the parser's state for the next call.
* combine keeps the state of a parser that failed.  What a codec or reader does when it is
  called again after a parse error is therefore not modelled, and no theorem is about it: the
  histories of C01-C03, C06 and C57 end with the first error.  (`Decoder::decode` starts a new
  parser on every call, so `reachable` decoders may have seen errors and panics.)
* A parser that reports the end of input *inside the payload of a complete segment* leaves
  the payload consumed; the resumed parser continues with the next bytes.  The theorems on
  chunking do not depend on this: they speak about inputs that decode one-shot.
* `factory` may or may not run its closure again when a parser resumes.  Both are modelled
  (`rerun`), and theorems quantify over it.
* rayon splits the lines in any way into contiguous pieces and initialises the thread-local
  value once per piece (`Rayon.v` quantifies over all splittings).
* `ArrayVec::push` on a full vector panics; slice indexing out of range panics;
  `chunks_mut(0)` panics.

## Findings

The theorems ending in `_refuted` are proved facts about inputs on which the code violates
the property.  In short:

| claim | what happens |
|-------|--------------|
| C05, C07 | a chunk boundary inside the extra bits of an end-of-band run is reported as an error; if combine re-runs the `factory` closure, a boundary inside a restart marker counts the MCU twice |
| C09 | Adobe transform and restart interval of an earlier image apply to later ones |
| C11, C12 | after a refill that crosses stuffed bytes and meets a marker, bytes are read twice, because the reset skips one byte per data byte and ignores the stuffed zeros: the position ends as many bytes before the marker as there were stuffed zeros (`C12_exact`) |
| C14 | a table without codes panics; more than 256 codes panic in a debug build |
| C24 | a segment length of 0 or 1 underflows: panic in debug, 65535 bytes swallowed in release |
| C28 | a frame header without components panics |
| C33, C34 | sums beyond 32 bits wrap; values from 768 up or below -256 are not clamped but reduced modulo 1024 |
| C36 | RGB (Adobe transform 0) gives a black image; YCCK panics |
| C38 | 4:2:2 images of most sizes panic |
| C39 | the generic upsampler leaves the last columns of a width that is no multiple of the factor; in an image they show 0 for that component (C45_every_file) |
| C40, C41 | with vertical subsampling all lines of a group repeat its first line, and the rayon build uses the group number as the row |
| C42 | inputs that panic in every build: EOI without frame, one component, progressive scan, width 0, missing quantisation table, empty Huffman table, trailing bytes |
| C43 | any byte after the end of image panics in one-shot decoding |
| C44 | comments are not skipped by length, so marker codes inside them are obeyed (exactly: only the marker of a comment is dropped, C44_exact) |
| C47 | an image in several scans fails; in general no input whose scan headers all have fewer components than its frame headers gives an image (SpecScans.v) |
| C48 | truncation can give an error other than "end of input" |
| C49 | bits left in the bit reader after an image are used for the scan of the next image on the stream |
| C52 | after any image, the input FF D8 FF D9 returns the same image again |
| C54 | the sample precision is ignored: 12-bit files decode to wrong pixels |
| C55 | the 1x1 transform cuts off instead of rounding |
| C56 | `choose_idct_size` underflows for an empty image |
| C57 | the complete list of panics reachable from `decode`; new among them: a scan whose band does not start at 0 is not checked for DC tables, and one that ends at 0 or 1 not for AC tables, and the scan then panics on the missing table; debug builds panic on Se > 63, on segment lengths below 2 and on more than 256 codes |
| C58 | a band of one AC coefficient (Ss = Se) is never read: `index < end_of_selection` should be `<=`; likewise Ss = 0, Se = 1 reads only the DC value |
| C59 | the reader supplies zero bits without end at a marker, so a file of 146 bytes without scan data decodes to an image of up to 65535 x 65535 pixels (12.9 GB) |
| C64 | every progressive image ends in the panic of `unimplemented!` at its first scan |
| C65, C66 | where C39 leaves columns out, images of one colour get a last column of another colour and grey images one that is not grey |
| C73 | mirrored coefficients give the mirrored picture only up to rounding, because the first pass of the inverse transform rounds halves upwards whatever their sign |
| C76 | in the rayon build with vertical subsampling, a change in one MCU appears far away (C41) |
| C78, C79 | bits that begin with no Huffman code are reported as "out of bits", so the codec asks for more input for ever and keeps everything from the damaged MCU on; without a marker behind SOI it keeps all bytes too |
| C80 | an error at the end-of-image marker becomes a panic when a byte follows (C43) |
| C87 | one step of one coefficient can turn white into black (C34) |
| C90, C91 | lines between the groups of C40 depend on the sampling factors themselves, not only on their ratios |
| C95 | a restart interval set behind the scan applies when the same file is decoded again, and the Adobe transform of one file to a later one without (C09) |
| C98 | one zero byte in front of a marker can turn an error into an image: the byte before is otherwise read twice (C12) |

## Testing the theorems

`seeded/LOG.jsonl` has one line per wrong program: the definition edited, the edit, the
claim it breaks, the theorems that no longer prove, and the theorems that had to be
tightened.  The edits were made in a copy outside `/verif`; proofs that break are admitted
there one by one so that the later theorems are still tried, and a theorem counts as failed
when it depends on a broken proof.  What the log does not show:

* The later runs tried only the files with theorems of the claims in `breaks`, so `failed`
  is not always the full list.
* A name with `?` was not confirmed: its dependencies could not be printed in that run.  All
  these edits were run again later, with names without `?`.
* Lines whose `note` begins with "Inconclusive" ran into a time limit.  For the claims named
  there they show which proofs broke, not that a theorem failed.
* `breaks` was sometimes shortened after a run, when the claim was found to hold of the
  edited program too.
