{
 "C10": {
  "status": "proved",
  "note": "All data, markers, read sizes 1..16, both build profiles."
 },
 "C11": {
  "status": "partial",
  "note": "Position claim proved for all inputs; the zero-bit claim is proved for data whose last seven bytes are not 0xFF (stuffed bytes allowed before that) and refuted in general (data bytes are delivered twice after a refill crossing a stuffed byte). C12_exact gives the repeated bytes."
 },
 "C12": {
  "status": "partial",
  "note": "False in general (C12_position_refuted: re-skip after the reset ignores stuffed zeros); proved for refills without stuffed bytes. C12_exact says for every refill that reaches the marker where it ends: as many bytes before the marker as there are 0xFF data bytes in the refill, with all the data and then zeros delivered."
 },
 "C13": {
  "status": "proved",
  "note": "C13_extend for the bit reader, C13_ac_extend for the combined AC table."
 },
 "C23": {
  "status": "proved",
  "note": "Complete characterisation of marker() for every byte string; whole files: bytes that are no marker are skipped wherever a marker is expected."
 },
 "C14": {
  "status": "partial",
  "note": "Acceptance characterised exactly. Rejection is an error except for tables without codes (panic, C14_empty_table_refuted) and, in debug builds, tables with more than 256 codes (panic, C14_large_table_refuted)."
 },
 "C15": {
  "status": "proved",
  "note": "Codes are those of T.81 C.2 (specification canonical); that the decoder uses exactly them is C16 and C17."
 },
 "C16": {
  "status": "proved",
  "note": "All accepted tables, symbols, reader states and following bits."
 },
 "C17": {
  "status": "proved",
  "note": "No symbol for a non-code; totality in every reader state; C17_no_dc_code and C17_no_ac_code: the block, and with it the scan, fails with an error wherever no code comes next (whole files: C63)."
 },
 "C18": {
  "status": "proved",
  "note": "Equality of results and reader states, in every reader state."
 },
 "C19": {
  "status": "proved",
  "note": "All blocks with DC category up to 11 and AC categories up to 15, any accepted tables, any reader alignment and any following bits."
 },
 "C20": {
  "status": "proved",
  "note": "All bands, tables and bit streams; C20_total adds that decoding ends in a block or an error."
 },
 "C21": {
  "status": "proved",
  "note": "C21_dc_running_sum: blocks of one component, modulo 2^16. C21_scan: whole scans with restart intervals; the DC values of an encoded scan are the running sums of the coded differences since the scan or restart began, and exactly these are read; data cut short and continued by zero bits is included."
 },
 "C26": {
  "status": "proved",
  "note": "natural is defined from the anti-diagonals of the square, not from the table in the code."
 },
 "C24": {
  "status": "partial",
  "note": "Proved for every marker with a segment and every payload with a length field of at least 2; a length below 2 panics in debug and swallows 65535 bytes in release (C24_short_length_refuted)."
 },
 "C25": {
  "status": "proved",
  "note": "Any list of tables of both precisions; acceptance implies well-formedness; bad precision or destination is an error."
 },
 "C27": {
  "status": "proved",
  "note": "f32 computation equals the integer geometry for all sizes and factors; no u16 product overflows in either profile."
 },
 "C28": {
  "status": "partial",
  "note": "Acceptance characterised exactly; rejection is an error except for headers with zero components, which panic (C28_no_components_refuted)."
 },
 "C29": {
  "status": "proved",
  "note": "Header acceptance and contents; selectors above 3 are accepted here and panic later (see C42)."
 },
 "C30": {
  "status": "proved",
  "note": "Any list of definitions; other slots and fields unchanged; only well-formed definitions are accepted."
 },
 "C31": {
  "status": "proved",
  "note": "APPn without effect (on the decoder and on the result of a whole file), Adobe APP14, rejection of other APP14; also DRI."
 },
 "C33": {
  "status": "partial",
  "note": "Flat blocks: 64 equal samples always; the value is the rounded level-shifted DC/8 while within -256..767, and that value modulo 1024 beyond (C33_flat_block_exact: exact value for every coefficient and quantiser). Shortcuts equal the full computation for products below 2^19, refuted beyond."
 },
 "C34": {
  "status": "partial",
  "note": "Saturation proved for values in -256..767; refuted beyond (value 1024 becomes 0). C34_exact: in general samples are the values modulo 1024, then saturated."
 },
 "C35": {
  "status": "proved",
  "note": "All triples, both profiles; green within an extra fixed-point error of 0.0012. C35_fixed: the exact bytes, as the 16-bit fixed-point formula; the pixels of C36, C37, C45, C47, C60 and C63 are given by it."
 },
 "C36": {
  "status": "partial",
  "note": "YCbCr, CMYK and YCCK lines and the missing-Adobe error proved, from the stored transform (what the Adobe marker stores is C31_adobe); RGB pass-through (gives black) refuted; the YCCK conversion expects three lines and panics on the four lines of every image with four components (C36_ycck_refuted, C36_ycck_never_refuted)."
 },
 "C46": {
  "status": "proved",
  "note": "Error at most 5/8 + magnitude/6000 against the real IDCT of T.81; below one for moderate blocks. Uses the axioms of the standard library's real numbers."
 },
 "C37": {
  "status": "proved",
  "note": "Rows returned for ratios 1 and 2 (all four interpolating upsamplers), whole images included; a row on which the upsampler panics (4:2:2, see C38) is not a returned row."
 },
 "C38": {
  "status": "partial",
  "note": "False in general; characterised exactly, for the upsampler and for whole files (C38_files_refuted): 4:2:2 works for width 1, or even width with height not a multiple of 8 or width at most 8; every file of another size makes the decoder panic."
 },
 "C39": {
  "status": "partial",
  "note": "Nearest neighbour on whole column groups proved; ratios that are not whole are an error, also for whole files; the trailing columns of a width that is no multiple of the ratio are drawn as 0 (refuted; exact value in C45_every_file)."
 },
 "C40": {
  "status": "partial",
  "note": "Proved when no component is vertically subsampled; otherwise lines of a group are copies of its first line (proved), so the claim is refuted."
 },
 "C41": {
  "status": "partial",
  "note": "Result independent of how rayon cuts the groups (all schedules). Equal to the sequential build without vertical subsampling; refuted with it."
 },
 "C01": {
  "status": "proved",
  "note": "One-shot decoding for every reachable Decoder and streaming decoding for every sequence of calls; UB is the outcome of every unchecked access out of bounds and of every read of an unwritten sample."
 },
 "C02": {
  "status": "proved",
  "note": "Well-foundedness of the transition relation, a linear bound on the number of transitions, and absence of the out-of-fuel outcome."
 },
 "C03": {
  "status": "proved",
  "note": "Against the frame reported by the decoder, and for a fresh decoder against a frame header occurring in the input."
 },
 "C04": {
  "status": "proved",
  "note": "All inputs and all decoder states, one-shot and streaming."
 },
 "C05": {
  "status": "partial",
  "note": "Proved for all chunkings of files without end-of-band-run symbols (all sequential files); with a re-run factory closure also without restart intervals. C05_files_partial states the restrictions on the segments of an encoded file and gives the exact answer of C45. False in general: both refutations are proved."
 },
 "C06": {
  "status": "partial",
  "note": "Byte accounting and 'an image only with an end-of-image marker' proved for all histories; no early answer and answer in time under the restrictions of C05 (for encoded files: C06_files_partial, C06_files_wait_partial)."
 },
 "C07": {
  "status": "partial",
  "note": "As C05, for the blocking reader and all read schedules (for encoded files: C07_files_partial); false in general for the same reason (refuted). C07_reads_partial and C07_file_reads_partial: the answer comes with the read that delivers the last byte of the file, bytes behind it that came with that read are kept, and no further read is made."
 },
 "C08": {
  "status": "proved",
  "note": "On a stateful model in which the mutable state is explicit; that model is proved to compute the same as the one used in the other theorems."
 },
 "C43": {
  "status": "partial",
  "note": "False for one-shot decode: proved to panic for every decodable input and every non-empty suffix. The codec and the reader accept trailing data (under the restrictions of C05)."
 },
 "C48": {
  "status": "partial",
  "note": "A proper prefix never yields an image and gives an end-of-input error unless a table has an end-of-band-run symbol; in that case another error is possible (refuted)."
 },
 "C22": {
  "status": "proved",
  "note": "After the i-th MCU of a scan, for every interval, MCU count and position; C22_scan_reads ties the MCU relation to the scan loop. C22_interval_of_dri and C22_fresh_interval say which interval is in force: that of the last DRI segment, none for a fresh decoder without one."
 },
 "C32": {
  "status": "proved",
  "note": "Every sample of every plane after a complete scan, for all frame geometries; the planes of the scan's components are listed in scan order."
 },
 "C45": {
  "status": "partial",
  "note": "C45_every_file: the exact answer to every file of an interleaved sequential image of positive size, and C45_empty_file for one without lines or columns, with any component count, sampling factors, tables, coefficients, restart interval, segments in any order before and after the scan, and fill bytes: image with exact pixels, error, or panic. C45_image_iff: when an image is returned. The property itself fails where SpecAnswer.v says so (panics on 4:2:2 sizes C38, one or two components, YCCK; black RGB C36; trailing columns C39; shared rows C40). Missing: comments containing marker codes (C44), several scans (C47)."
 },
 "C44": {
  "status": "partial",
  "note": "False in general: a comment containing a marker code changes the image (C44_refuted) or panics (C44_panic_refuted). Proved for every comment without marker codes, at every place where the decoder looks for a marker (C44_places), for every Decoder. C44_exact: for any comment, only the marker is dropped; length and payload are read as bytes between segments."
 },
 "C47": {
  "status": "partial",
  "note": "False: the same image in three scans fails (C47_refuted), and no image in several scans is ever decoded: if every scan header in the input has fewer components than every frame header there is no image, for all inputs (C47_several_scans_refuted; release builds: without an APP14 marker). In general an image comes out only if the last scan covers all components of the frame (C47_last_scan_partial)."
 },
 "C42": {
  "status": "partial",
  "note": "False in general (C42_refuted: seven inputs that panic in every build: EOI without frame, greyscale, progressive, width 0, missing quantisation table, empty Huffman table, trailing byte). Proved: with well-formed segments around the scan, no damage to the scan data (any bytes whose only markers are RSTn) and no truncation of the file panics; any such file of positive size, whatever its sampling and number of components, gets an error or the exact answer of SpecAnswer.v for some coefficients (C42_damaged_answer); and a panic is never undone by appending bytes. For damage to the header segments C57 gives the complete list of causes of panics."
 },
 "C09": {
  "status": "partial",
  "note": "False in general (C09_refuted: an Adobe colour transform or a restart interval left over from an earlier image is applied to a later one). Proved: after any history without DRI/APP14 codes, or when the new file's header sets both, any image a fresh decoder returns is returned by the used one (release build: unless the image is all black), and every encoded file gets exactly the fresh decoder's answer - image, error or panic (C09_files_partial). C09_series says exactly what is taken over: after other encoded files, a file gets the answer of a fresh decoder to the same file with all earlier tables, restart intervals and colour transforms in front. Missing: ill-formed inputs that a fresh decoder rejects."
 },
 "C49": {
  "status": "partial",
  "note": "False in general: the bits left in the bit reader after one image are taken for the start of the next image's scan, so a second image is never answered or gets wrong pixels (C49_refuted). What the codec does answer to the next file is stated exactly for files with one scan of any bytes: they are read as if the left-over bits came in front of the scan data, with the restart interval and the Adobe transform that are still set (C49_next, C49_next_reading). The claim holds for the next file if nothing is left over (C49_next_partial), and with a new codec per image on a shared buffer, under the restrictions of C05 (C49_fresh_codec_partial)."
 },
 "C50": {
  "status": "partial",
  "note": "Proved under the restrictions of C05 (no runs of blocks ended across a chunk boundary; no restart intervals when the restart check reruns), for images, parse errors and inputs cut short; for encoded files in terms of their segments (C50_files_partial, C50_files_cut_partial)."
 },
 "C51": {
  "status": "proved",
  "note": "Also: the list of unsupported codes is complete."
 },
 "C52": {
  "status": "partial",
  "note": "False in general: after any call that returned an image, the input FF D8 FF D9 returns that image again (C52_refuted). Proved for a fresh decoder: an input without a scan marker gives no image, or in release builds a black one. C52_own_pixels_partial: for all used decoders, an input in which a scan marker follows the header segments is answered independently of the pixels of earlier images, whatever follows that marker."
 },
 "C53": {
  "status": "proved",
  "note": "For every frame header, place and decoder state."
 },
 "C54": {
  "status": "partial",
  "note": "False: the precision has no influence at all (C54_refuted, C54_ignored)."
 },
 "C55": {
  "status": "partial",
  "note": "The functions are internal (the decoder always uses scale 8). Placement, the 2x2 and the 4x4 values are proved, flat blocks at scales 2, 4, 8; at scale 1 the mean is cut off instead of rounded, so flat blocks may be one darker (C55_refuted)."
 },
 "C56": {
  "status": "proved",
  "note": "For non-empty images; an empty side panics in debug builds (C56_empty_refuted)."
 },
 "C57": {
  "status": "proved",
  "note": "Panics are possible (C42); the theorem gives the complete list of causes, and shows that the first eight always panic and that without a cause the call returns"
 },
 "C58": {
  "status": "partial",
  "note": "proved for bands of two or more coefficients and any runs; false for a band of one AC coefficient (C58_single_coefficient_refuted): the code compares index < end_of_selection and never reads it"
 },
 "C59": {
  "status": "partial",
  "note": "False (C59_refuted): a 146-byte file without scan data gives an image of any size up to 65535 x 65535; the bit reader supplies zero bits for ever once it meets a marker, and nothing compares the data with the declared size. No bound is therefore claimed."
 },
 "C60": {
  "status": "proved",
  "note": "For every well-formed file with damage inside restart intervals: an error, or the exact answer of SpecAnswer.v for MCUs that equal the intact ones (C60_contained), so that samples of intact MCUs are those of the undamaged file (C60_same_samples). The damaged bytes are arbitrary as long as every 0xFF is followed by 0 (otherwise they contain a marker). C60_intact_pixels says the same of the pixels of the image: a pixel is unchanged if its MCU (with subsampling: and the neighbouring ones) can still be read."
 },
 "C61": {
  "status": "proved",
  "note": "Two files as in C45 with the same coefficients, quantisation values, size, sampling factors and Adobe transform have the same answer, image or error (C61_transcoding)."
 },
 "C62": {
  "status": "proved",
  "note": "C62_full_resolution: within three for components of full resolution (all factors 1). C62_any_sampling: bound as a function of the magnitude (up to 65536, with exact samples between -240 and 750 before they are limited) for any sampling factors for which an image comes out, against real-valued interpolation (rows as in C40). C62_cmyk: inverted CMYK. Depends on the axioms of the standard library reals."
 },
 "C63": {
  "status": "proved",
  "note": "C63_file: for any header of a sequential image and any bytes and restart markers as scan data, the answer of SpecAnswer.v for the MCUs that the reference reads (SpecCode.v), or an error if it reads none; the error case needs intervals none of whose last seven bytes is 0xFF (C12 says what the reader delivers otherwise). C63_block: the same for one block. C63_same_reading: two files with the same header for which the reference reads the same MCUs get equal answers, also for the cases of an image or a panic. C63_reference: the reference reads every encoding of SpecScan.v. EOBn symbols with n > 0, which sequential scans must not use, are read as in a progressive scan, as in the code."
 },
 "C64": {
  "status": "partial",
  "note": "C64_refuted: false for every progressive image. After a progressive frame header and any tables, every well-formed scan header of components of the frame ends the call in the panic of unimplemented!, for every decoder and build, whatever comes before and after. C57 lists the cause among those that always panic."
 },
 "C65": {
  "status": "partial",
  "note": "C65_solid_partial and C65_solid_cmyk_partial: all pixels are the colour of the DC values, for every size and all factors such that no columns are left out by repetition (C39). C65_exact and C65_cmyk_exact give every pixel without that condition; C65_refuted is a 4:1:1 file of width 5 whose last column is another colour."
 },
 "C66": {
  "status": "partial",
  "note": "C66_grey_partial: every pixel is grey with the luma value when no chroma columns are left out; C66_grey_iff: this condition is exact, otherwise the last column is never grey."
 },
 "C67": {
  "status": "proved",
  "note": "C67_from_input and C67_stays for arbitrary bytes, C67_header for well-formed segments followed by anything. The decoders inside DecoderCodec and ReadDecoder are private, so their frame is not observable."
 },
 "C68": {
  "status": "proved",
  "note": "C68_requantised, for whole files; the answers are equal also where they are errors or panics. Zero quantisation values (not allowed by T.81) are excluded: with them the shortcuts of the inverse transform may differ (C33)."
 },
 "C69": {
  "status": "proved",
  "note": "C69_cut_out: all pixels without subsampling, otherwise all pixels away from the cut (C69_subsampled_case shows that the first column may differ). The parallel build only without vertical subsampling (C41)."
 },
 "C70": {
  "status": "proved",
  "note": "C70_decode_encode (C70_empty without lines or columns); C70_encodes: the encoder's bytes are a file in the sense of the other properties; C70_canonical: any other file of the same coefficients is answered in the same way. The encoder is part of the specification, not of the modelled program; DC coefficients in -1024..1023, AC coefficients in -32767..32767."
 },
 "C71": {
  "status": "proved",
  "note": "C71_cmyk_tiles: exactly the picture asked for; C71_ycbcr_tiles: the colours of the fixed-point conversion (C35). RGB files (Adobe transform 0) decode to black images (C45), so that RGB pictures cannot be had directly."
 },
 "C72": {
  "status": "proved",
  "note": "C72_quantised_cmyk and C72_quantised_ycbcr: files without subsampling with any quantised picture, e at most 240; C72_every_cmyk_picture and C72_every_rgb_picture: a file exists for every picture (tables of ones). C72_planes_ycbcr and C72_planes_cmyk: files with any sampling factors, compared with the interpolation of the planes; C72_planes_encoder and C72_round_trip: an encoder for planes with any factors and tables, and decoding what it makes. The RGB bounds add the distances of the three components. Forward transform and rounding are part of the specification (SpecFdct.v, SpecPlanes.v), over the real numbers."
 },
 "C73": {
  "status": "partial",
  "note": "C73_upside_down_partial: exact if the number of lines is a multiple of 8 and all vertical sampling factors are 1; C73_turn_partial: every such image can be turned and encoded. C73_mirror_refuted: left and right are not exact, the first pass of the inverse transform rounds halves upwards whatever their sign; C73_mirror_partial: up to 1 per byte (four components) or 3 (three) for images whose columns are whole MCUs (any sampling factors: C73_mirror_any_partial, C73_mirror_function_partial) and blocks that the inverse transform keeps within -255..766 before samples are limited to 0..255 (`modest` in SpecFlip.v; all blocks with a sum of at most 1472 are). C73_tall_refuted: with vertical factors of 2 pairs of lines share a row (C40), and the turned image differs."
 },
 "C74": {
  "status": "proved",
  "note": "C74_four_components and C74_three_components, for pairs of whole files as in C45; green depends on all three components. RGB files (Adobe transform 0) are black (C45), for which the claim holds trivially."
 },
 "C75": {
  "status": "partial",
  "note": "C75_four_components_partial and C75_three_components_partial: before and after for blocks that the inverse transform keeps within -255..766 before samples are limited to 0..255 (`modest` in SpecFlip.v; all blocks with a sum of at most 1472 are); exact where the raised component is not subsampled and nothing is cut off, otherwise between 0 and n. C75_refuted: beyond that a white block can become black (C34)."
 },
 "C76": {
  "status": "partial",
  "note": "C76_local_partial: for the sequential build, and for the parallel one without vertical sampling factors above 1. C76_near_row: in every build, the MCUs within one pixel of the row that is shown decide. C76_rayon_refuted: with vertical factors the parallel build shows other rows (C41), and changes appear far away. C76_case shows that one column is the least that can be said."
 },
 "C77": {
  "status": "partial",
  "note": "C77_transposed_partial: up to 1 per byte (four components) or 3 (three), for sampling factors of 1 and blocks that the inverse transform keeps within -255..766 before samples are limited to 0..255 (`modest` in SpecFlip.v; all blocks with a sum of at most 1472 are); C77_transpose_partial: every such image can be transposed and encoded; C77_quarter_turn_partial: with C73, a quarter turn. C77_exact_refuted: not exact, the two passes of the inverse transform round differently. C77_subsampled_refuted: false for 4:2:0 images, whose lines are shown in pairs and columns are not (C40). Missing: factors that are equal in one direction only, and blocks that leave that range."
 },
 "C78": {
  "status": "partial",
  "note": "C78_notices_refuted: without restart intervals, bits that begin with no Huffman code make the codec ask for more for ever, whatever follows the file and however it is cut; its buffer keeps everything from the damaged MCU on, so it grows without bound; decoding at once and the blocking reader report the end of the input. The cause is that a failed code lookup is mapped to end_of_input (lib.rs:1079-1158), which a resumable parser takes for missing data. C78_readable_partial: data in which the reference (SpecCode.v) finds all MCUs are answered by the call that completes the file, as decoding at once answers them. C78_any_data_partial: for any scan data with any RSTn markers, with or without restart intervals: if decoding the file at once reports the end of the input, the codec waits for ever whatever follows; otherwise it gives the outcome of decoding at once. Missing: tables with end-of-band runs, and restart intervals in a codec that re-runs the closure of factory (see C05); errors other than the end of the input are reported in pieces as at once by C05_chunking_error_partial."
 },
 "C79": {
  "status": "partial",
  "note": "Refuted in general: C79_junk_refuted (bytes without a marker behind SOI are all kept) and, for damaged scan data, C78_notices_refuted and C79_stuck_case (the buffer keeps everything from the damaged MCU on). C79_bounded_partial: for every input that is answered when handed over at once, the buffer holds at most 65536 bytes after every piece of every cut, or no complete marker; progressive files with end-of-band runs and, where the restart check is done again, restart intervals are left out as for C05. C79_files_partial: the same for files, with any scan data for which decoding at once does not report the end of the input. C79_stuck: for any input and any build, a decoder that keeps more than 65536 bytes with a marker among them, and whose state is not changed by asking again, asks for more for ever and keeps everything."
 },
 "C80": {
  "status": "partial",
  "note": "C80_final_partial: every error other than the end of the input and every panic stays the same whatever follows, for every decoder and build, with two exceptions. C80_refuted shows both: an error found at the end-of-image marker becomes the panic of C43 when a byte follows, and 'out of bits' inside the extra bits of an end-of-band run can become an image (C48)."
 },
 "C81": {
  "status": "proved",
  "note": "C81_bounded: in every state that decoding any bytes with a fresh decoder passes through or ends in, the planes of the last scan and the planes under construction each hold at most what a frame header of the input with at most four components accounts for, and the block buffer at most 10 blocks. C81_history: the same with the largest size for every decoder and codec with any history. C81_stream: a codec, after any chunks and calls and also after a failing call, holds at most what a frame header among the bytes that have arrived accounts for. C81_early: the planes have their full size when the scan starts, whatever follows the scan header. C81_short: 200 bytes are enough for any size. Samples and coefficients are counted, not bytes; the line buffers and the image itself (C03) are not counted here."
 },
 "C82": {
  "status": "proved",
  "note": "C82_no_read_ahead: every read of a call was made only after the bytes before it had left the parser waiting, and unless the input ended, the call would have returned the same whatever the source delivers later; C82_bytes_kept: bytes held before and bytes read are the bytes used followed by the bytes held for the next call. With C07_reads_partial and C07_file_reads_partial: the answer to a whole file comes with the read that delivers its last byte. [Data []] events are allowed in the theorems; in the code a read of 0 bytes is the end of the input."
 },
 "C83": {
  "status": "proved",
  "note": "C83_read_as_framed: for all pieces of any bytes and from any state of the codec both end, give the same images and the same error or panic; at the end of the input the framed stream ends or complains about bytes left, the reader reports the end of the input. Whether the images are the right ones is C49 (refuted: the bits left over from one image are read in front of the next scan), so this also holds for the reader (C83_case)."
 },
 "C84": {
  "status": "partial",
  "note": "C84_three_components_partial, C84_four_components_partial and C84_negate(_cmyk)_partial: sums within 253..259 (RGB) and 253..255 (CMYK) without subsampling, 252..262 and 252..255 with it, for blocks that the inverse transform keeps within -255..766 in both images (`modest` in SpecFlip.v) and components of which no columns are left out. Both conditions are needed: C84_refuted (an image and its negative both white, C34) and C84_left_out_refuted (the left-out column of a grey image is green in both, C39)."
 },
 "C85": {
  "status": "partial",
  "note": "C85_four_components_partial and C85_three_components_partial: for blocks whose samples lie within 0..255 by themselves (`unclipped` in SpecSum.v, part of the property: nothing is cut off) and, with three components, bytes that are neither 0 nor 255; for components of which no columns are left out. C85_left_out_refuted: left-out columns show 255 in all three pictures (C39)."
 },
 "C86": {
  "status": "proved",
  "note": "The English claim includes the exceptions (panics), which C86_crash shows to be real; C42 keeps the claim that there are none. Places where a segment is expected are given by between_segments (see C44_places); the theorem on scan headers is for a list of well-formed segments, so that the frame is known."
 },
 "C87": {
  "status": "partial",
  "note": "Proved for blocks that stay in the range in which samples are limited to 0..255 (modest: undershoot to -255 and overshoot to 766), with any sampling factors and with left-out columns. Outside that range it is false (C87_refuted: one step of one coefficient turns a white picture black, because of C34)."
 },
 "C88": {
  "status": "proved",
  "note": "Slightly more general than the claim: other components may be subsampled horizontally. With vertical subsampling lines are repeated (C40), so squares do not show whole blocks. Samples that are cut off (limited to 0..255) are excluded in the claim itself. C88_dc_only: with all other coefficients set to zero each byte is that mean up to 65/64."
 },
 "C89": {
  "status": "proved",
  "note": "For four components, where every byte shows one component; with three components the order decides which one is the luma component."
 },
 "C90": {
  "status": "partial",
  "note": "Proved (C90_ratios_partial) for files that both decode, on all lines if the largest vertical factors agree, otherwise without rayon on the lines that are multiples of both. C90_lines says which lines agree in general. C90_refuted: false on other lines, because lines are handled in groups of the largest vertical factor (C40). C90_decodes_refuted: one of the two files may panic (C38). C90_padding, filling blocks do not matter, is complete."
 },
 "C91": {
  "status": "partial",
  "note": "Proved (C91_subsampled_partial) for files that both decode, on all lines if the largest vertical factors agree, otherwise without rayon on the lines that are multiples of both; C91_lines says which lines agree in general. C91_refuted: false on other lines, because lines are handled in groups of the largest vertical factor (C40)."
 },
 "C92": {
  "status": "proved",
  "note": "C92_definitions for any two runs of header segments with the same last definitions; C92_any_order and C92_grouping are the two everyday cases. Comments must hold no marker (C44)."
 },
 "C93": {
  "status": "proved",
  "note": "C93_spare_tables for any two headers (`defines_more`), C93_spare_segment for one more segment of tables. The converse does not hold and is not claimed: a table that is used cannot be taken away (C93_used)."
 },
 "C94": {
  "status": "proved",
  "note": "C94_stray_markers for every such place (`between_segments` in SpecLimits.v), C94_start_optional for the beginning of a file."
 },
 "C95": {
  "status": "partial",
  "note": "C95_any_sequence_partial: any sequence of complete files, where each sets the restart interval in its header or follows files that leave it 0, and the last has an Adobe segment (anywhere) or follows files without. C95_again_partial: any number of repetitions of a file, unless a non-zero restart interval is set behind the scan only. Both restrictions are needed: C95_again_refuted (a DRI segment behind the scan changes the second answer) and C95_sequence_refuted (an Adobe segment of an earlier file changes the colours of a later one)."
 },
 "C96": {
  "status": "proved",
  "note": "C96_margin; `same_inside` in SpecMargin.v says that two images have the same block wherever one of its samples belongs to the image."
 },
 "C97": {
  "status": "proved",
  "note": "C97_trailing; `scan_longer` in SpecTrailing.v describes the scan data. Intervals that stop early (missing bits read as zeros, C12) are not extended: bytes behind them are read as part of the data."
 },
 "C98": {
  "status": "partial",
  "note": "C98_zeros_partial: for data of which the last seven bytes of each interval contain no 0xFF. C98_refuted: otherwise false, because data bytes behind a stuffed one are delivered a second time (C12); a zero byte added to the file of the refutation turns an error into an image."
 },
 "C99": {
  "status": "proved",
  "note": "C99_rewritten: the same answer for all MCUs that the plain reading of C63 finds. C99_image: it finds them whenever an image is returned, for data without 0xFF among the last seven bytes before a marker (otherwise the decoder may use bytes that are read twice, C12)."
 }
}
