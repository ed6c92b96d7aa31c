{"id": "C01", "title": "Memory safety of unchecked accesses", "statement": "Whatever bytes are decoded and whatever the Decoder was used for before, decoding never performs an out-of-bounds unchecked table/coefficient access and never returns or computes with a sample of the uninitialised plane buffers.", "quantifier": "all byte strings, all earlier uses of the Decoder, debug and release builds", "why_tests_cant": "the unsafe code paths are reachable from arbitrary attacker-controlled bytes; tests visit a handful of files and undefined behaviour need not show", "anchors": ["src/lib.rs:unzigzag", "src/lib.rs:decode_scan (set_len)", "src/clamp.rs:stbi_clamp", "src/color_conversion.rs:ycbcr_to_rgb"]}
{"id": "C02", "title": "Decoding always terminates", "statement": "decode returns (a value, an error or a panic) for every input; each loop of the parser and of the entropy decoder makes progress.", "quantifier": "all byte strings, all decoder states", "why_tests_cant": "non-termination on one crafted input cannot be excluded by sampling", "anchors": ["src/lib.rs:decode_parser", "src/lib.rs:Decoder::decode_block", "src/marker.rs:marker"]}
{"id": "C03", "title": "Size of the returned image", "statement": "When decode returns an image, the returned vector has exactly lines * samples_per_line * components bytes for the frame the decoder reports, and every element is a byte.", "quantifier": "all byte strings on which decode returns Ok", "why_tests_cant": "a user indexes pixels by that formula; sizes 0..65535 squared and all sampling layouts cannot be enumerated", "anchors": ["src/lib.rs:upsample", "src/lib.rs:Decoder::decode"]}
{"id": "C04", "title": "Debug and release builds agree", "statement": "If the debug build decodes an input without panicking, then the release build (no overflow checks, no debug_assert) returns the same result and the same decoder state.", "quantifier": "all byte strings and decoder states", "why_tests_cant": "tests run in one profile; agreement is a statement about two builds over all inputs", "anchors": ["src/lib.rs:segment", "src/lib.rs:sos", "src/biterator.rs", "src/huffman.rs:BaseTable::new"]}
{"id": "C05", "title": "Streaming result does not depend on chunking", "statement": "If one-shot decode returns an image for a byte string, then the tokio codec fed the same bytes split into any sequence of chunks produces exactly that image, once, and no error.", "quantifier": "all inputs decodable in one shot, all splits into chunks (including empty chunks and splits inside markers, segments and MCUs)", "why_tests_cant": "the number of splits is exponential in the length; the quickcheck tests sample two files", "anchors": ["src/lib.rs:DecoderCodec", "src/lib.rs:Decoder::decode_row", "src/lib.rs:restart_parser"]}
{"id": "C06", "title": "The codec never emits early or twice and never loses bytes", "statement": "Until the end-of-image marker has arrived the codec answers None without error on a prefix of a decodable input; every byte it drops from the buffer has been accounted for, so the bytes kept plus those dropped are the bytes received.", "quantifier": "all prefixes and all chunkings of decodable inputs", "why_tests_cant": "needs all prefixes of all inputs", "anchors": ["src/lib.rs:DecoderCodec::decode"]}
{"id": "C07", "title": "Blocking reader agrees with one-shot decoding", "statement": "ReadDecoder over a reader that returns the bytes in arbitrary pieces yields the same image as one-shot decode.", "quantifier": "all decodable inputs and all read schedules", "why_tests_cant": "schedule space is unbounded", "anchors": ["src/lib.rs:ReadDecoder::decode"]}
{"id": "C08", "title": "A failed MCU is rolled back", "statement": "If decoding one MCU fails, for instance because the buffered input ran out, the byte position, bit buffer, DC predictors and end-of-band run are exactly what they were before the attempt, so it can be retried.", "quantifier": "all decoder states and inputs on which decoding the MCU fails", "why_tests_cant": "failure can strike after any bit of the MCU", "anchors": ["src/lib.rs:Decoder::decode_row"]}
{"id": "C09", "title": "Reusing a Decoder", "statement": "Decoding a self-contained image with a Decoder that was used before gives the same result as with a fresh Decoder.", "quantifier": "all histories of earlier decodes and all images", "why_tests_cant": "needs all pairs of histories and images", "anchors": ["src/lib.rs:Decoder::decode", "src/lib.rs:Decoder"]}
{"id": "C10", "title": "Bit reader delivers the destuffed bits in order", "statement": "Reading any sequence of bit groups from entropy-coded data yields exactly the bits of the data with stuffed zero bytes removed, most significant first, independent of how the reads are grouped and where refills happen.", "quantifier": "all entropy-coded byte strings, all sequences of read sizes 1..16 within the data", "why_tests_cant": "refill boundaries interact with stuffing and read sizes in unboundedly many ways", "anchors": ["src/biterator.rs:fill_bits", "src/biterator.rs:next_bits", "src/biterator.rs:peek_bits"]}
{"id": "C11", "title": "The bit reader stops at markers", "statement": "When the data ends with a marker the bit reader supplies zero bits and never advances past the first byte of the marker.", "quantifier": "all data followed by any marker, any number of refills", "why_tests_cant": "quantifies over data and refill alignment", "anchors": ["src/biterator.rs:fill_bits"]}
{"id": "C12", "title": "Position after reaching a marker", "statement": "After a refill that ran into a marker the byte position is exactly at the marker.", "quantifier": "all refills that reach a marker", "why_tests_cant": "depends on stuffing inside the same refill", "anchors": ["src/biterator.rs:fill_bits"]}
{"id": "C13", "title": "Sign extension of magnitudes", "statement": "The value decoded from an n-bit magnitude v is v if its top bit is set and v - 2^n + 1 otherwise (EXTEND of ITU T.81 F.12), for the bit reader and for the precomputed AC table alike.", "quantifier": "n in 1..15, all v < 2^n", "why_tests_cant": "stated for the whole domain, including the branch-free wrap-around arithmetic", "anchors": ["src/biterator.rs:extend", "src/biterator.rs:receive_extend"]}
{"id": "C14", "title": "Which Huffman tables are accepted", "statement": "A DHT table is accepted exactly when the canonical code assignment for its length counts fits (no code overflows its length) and has between 1 and 256 codes; otherwise it is rejected with an error.", "quantifier": "all count vectors of 16 bytes and value lists", "why_tests_cant": "256^16 count vectors", "anchors": ["src/huffman.rs:BaseTable::new", "src/huffman.rs:huffsize"]}
{"id": "C15", "title": "Canonical codes are prefix-free", "statement": "The codes given to the symbols of an accepted table are the canonical ones of T.81 C.2: increasing with length, consecutive within a length, and no code is a prefix of another.", "quantifier": "all accepted tables", "why_tests_cant": "needs all tables", "anchors": ["src/huffman.rs:BaseTable::new"]}
{"id": "C16", "title": "Huffman decoding inverts encoding", "statement": "If the next bits of the input are the canonical code of the k-th symbol of an accepted table, decoding returns that symbol and consumes exactly its code, whether it is found by the 8-bit lookup or by the length search, and whatever follows.", "quantifier": "all accepted tables, all symbols, all following bits and reader states", "why_tests_cant": "all tables times all bit contexts", "anchors": ["src/huffman.rs:BaseTable::decode", "src/huffman.rs:BaseTable::decode_inner"]}
{"id": "C17", "title": "Bits that are no code are rejected", "statement": "If no code of the table is a prefix of the next 16 bits, decoding reports an error and no symbol is produced; decoding never indexes outside the table.", "quantifier": "all accepted tables and bit states", "why_tests_cant": "all tables times all 2^16 windows", "anchors": ["src/huffman.rs:BaseTable::decode_inner"]}
{"id": "C18", "title": "The fast AC path equals the slow path", "statement": "Decoding an AC run/value pair through the combined lookup gives the same run, value and bits consumed as decoding the symbol and then reading its magnitude bits.", "quantifier": "all accepted AC tables and reader states with enough bits", "why_tests_cant": "all tables times all bit windows", "anchors": ["src/huffman.rs:AcTable::new", "src/huffman.rs:AcTable::decode_fast_ac"]}
{"id": "C19", "title": "Block decoding inverts sequential encoding", "statement": "For every 8x8 block of quantised coefficients encoded by the sequential Huffman procedure of T.81 F.1.2 with accepted tables that contain the needed symbols, decoding the bits returns exactly that block, the new predictor, and leaves the reader right after the block.", "quantifier": "all coefficient blocks with categories within range, all accepted tables, all reader alignments, all following bits", "why_tests_cant": "domain is astronomically large", "anchors": ["src/lib.rs:Decoder::decode_block", "src/huffman.rs", "src/biterator.rs"]}
{"id": "C20", "title": "Only the selected band is written", "statement": "Decoding a block only writes coefficients whose zigzag index is inside the scan's selected band, writes each at its zigzag position, and leaves the others zero.", "quantifier": "all scans, tables and bit streams, valid or not", "why_tests_cant": "must hold for corrupt streams too", "anchors": ["src/lib.rs:Decoder::decode_block", "src/lib.rs:UnZigZag"]}
{"id": "C21", "title": "DC prediction", "statement": "The DC coefficient of each block is the running sum modulo 2^16 of the decoded differences of its component since the scan or the last restart marker.", "quantifier": "all block sequences", "why_tests_cant": "histories of unbounded length; wrap-around", "anchors": ["src/lib.rs:Decoder::decode_block", "src/lib.rs:Decoder::decode_row"]}
{"id": "C22", "title": "Restart intervals", "statement": "With restart interval R > 0 a restart marker is required after every R-th MCU of a scan except after the last MCU, numbered cyclically RST0..RST7; a wrong number or another marker is an error; each restart clears predictors and the bit buffer; with R = 0 none is read.", "quantifier": "all R, all MCU counts, all positions", "why_tests_cant": "needs long scans and all phases", "anchors": ["src/lib.rs:restart_parser"]}
{"id": "C23", "title": "Marker scanning", "statement": "Looking for a marker skips bytes that are not 0xFF, stuffed FF00 pairs and fill FF bytes, and returns the first marker byte after them together with the input right after it; it consumes nothing else.", "quantifier": "all byte strings", "why_tests_cant": "all garbage prefixes", "anchors": ["src/marker.rs:marker"]}
{"id": "C24", "title": "Segments are isolated by their length", "statement": "Processing a segment consumes exactly the number of bytes its length field announces, whatever its contents, and its contents are interpreted without looking at bytes beyond it.", "quantifier": "all segment lengths, contents and following bytes", "why_tests_cant": "needs all lengths and suffixes", "anchors": ["src/lib.rs:segment"]}
{"id": "C25", "title": "Quantisation tables", "statement": "A DQT segment holding any list of well-formed 8- and 16-bit tables makes each destination hold, at natural position, the zigzag-ordered values of the last table for it, leaves other destinations alone, and rejects precisions above 1 and destinations above 3.", "quantifier": "all lists of tables", "why_tests_cant": "all table contents and orders", "anchors": ["src/lib.rs:dqt", "src/lib.rs:QuantizationTable::new"]}
{"id": "C26", "title": "Zigzag order", "statement": "The coefficient order used for tables and blocks is the zigzag traversal of the 8x8 square and is a permutation of 0..63.", "quantifier": "all 64 indices", "why_tests_cant": "a finite check stated against the traversal, needed by every other statement on coefficients", "anchors": ["src/lib.rs:UNZIGZAG"]}
{"id": "C27", "title": "Frame geometry is exact", "statement": "The geometry a frame reports is the exact integer geometry of T.81 A.1/A.2 despite being computed in 32-bit floating point: MCU counts are ceil(size/(8*max factor)), component sizes are ceil(size*factor/max), block counts are MCUs*factor, and no 16-bit product overflows.", "quantifier": "all widths and heights 0..65535 and all factors 1..4", "why_tests_cant": "2^32 sizes times all layouts; float rounding errors would be rare", "anchors": ["src/lib.rs:sof"]}
{"id": "C28", "title": "Which frame headers are accepted", "statement": "A frame header is accepted exactly when all its components have both sampling factors in 1..4 and all component records are present; otherwise it is an error, not a crash.", "quantifier": "all SOF segment contents", "why_tests_cant": "all contents", "anchors": ["src/lib.rs:sof", "src/lib.rs:check_sampling_factor"]}
{"id": "C29", "title": "Which scan headers are accepted", "statement": "A scan header is accepted exactly when it names 1..4 components, all present in the frame, in strictly increasing frame order; a scan before any frame is an error.", "quantifier": "all SOS segment contents and frames", "why_tests_cant": "all contents times all frames", "anchors": ["src/lib.rs:sos_segment"]}
{"id": "C30", "title": "Huffman table definitions hit their slot only", "statement": "A DHT segment replaces exactly the tables of the classes and destinations it names, with the tables built from its counts and values, and leaves every other table as it was.", "quantifier": "all DHT segment contents and decoder states", "why_tests_cant": "all contents", "anchors": ["src/lib.rs:huffman_table", "src/lib.rs:do_segment"]}
{"id": "C31", "title": "Application segments", "statement": "APPn segments other than APP14 and comment-free metadata change nothing in the decoder; an Adobe APP14 segment sets exactly the colour transform it names.", "quantifier": "all payloads", "why_tests_cant": "all payloads", "anchors": ["src/lib.rs:do_segment", "src/lib.rs:app_adobe"]}
{"id": "C32", "title": "Block placement in planes", "statement": "After a complete scan every sample of every component plane has been written, and the sample at row r, column c of a plane comes from the block of the MCU, block row and block column that contain it.", "quantifier": "all frame geometries", "why_tests_cant": "all sizes and sampling layouts", "anchors": ["src/lib.rs:Decoder::dequantize", "src/lib.rs:step_range"]}
{"id": "C33", "title": "Inverse DCT of flat blocks and its shortcuts", "statement": "A block with only a DC coefficient decodes to 64 equal samples, the level-shifted rounded DC/8 clamped to 0..255; the zero-column and zero-row shortcuts give the same samples as the full computation.", "quantifier": "all DC values, quantisers and coefficient columns within range", "why_tests_cant": "all 16-bit values and tables", "anchors": ["src/idct.rs:dequantize_and_idct_block_8x8_inner", "src/idct.rs:kernel"]}
{"id": "C34", "title": "Samples are clamped, never wrapped", "statement": "Samples leaving the inverse DCT are the computed value saturated to 0..255.", "quantifier": "all coefficient blocks and quantisation tables", "why_tests_cant": "wrong only far outside the usual range", "anchors": ["src/clamp.rs:stbi_clamp", "src/idct.rs"]}
{"id": "C35", "title": "YCbCr to RGB conversion", "statement": "For every y, cb, cr the unchecked clamp lookup is in bounds and each output is the BT.601 value rounded to nearest (up to the documented fixed-point error) and saturated to 0..255.", "quantifier": "all 2^24 triples", "why_tests_cant": "the repository only tests cb = cr and a few points", "anchors": ["src/color_conversion.rs:ycbcr_to_rgb"]}
{"id": "C36", "title": "Colour transforms by component count", "statement": "Three components with Adobe transform 0 are returned as RGB unchanged, otherwise converted from YCbCr; four components are converted as inverted CMYK or YCCK as the Adobe marker says; four components without the marker are an error.", "quantifier": "all sample lines of any length", "why_tests_cant": "all lines", "anchors": ["src/color_conversion.rs:choose_color_convert_func", "src/color_conversion.rs:ColorConvertFunc::convert"]}
{"id": "C37", "title": "Chroma interpolation stays in range and preserves constants", "statement": "Upsampled rows have at least the output width, each interpolated sample lies between the minimum and maximum of the samples it is computed from, and a constant plane upsamples to the same constant.", "quantifier": "all planes, widths, heights, rows", "why_tests_cant": "all plane contents", "anchors": ["src/upsampler.rs"]}
{"id": "C38", "title": "4:2:2 images decode", "statement": "Upsampling a component that has half the horizontal resolution (H2V1) succeeds for every image size.", "quantifier": "all widths and heights, all planes of the right size", "why_tests_cant": "fails only for some sizes, none of them in the test images", "anchors": ["src/upsampler.rs:UpsamplerH2V1"]}
{"id": "C39", "title": "Generic upsampling is nearest neighbour", "statement": "With integral scaling factors above 2 each output column x shows input column x / factor, up to the full output width; non-integral ratios are reported as unsupported.", "quantifier": "all widths, factors and planes", "why_tests_cant": "fails only when the width is not a multiple of the factor", "anchors": ["src/upsampler.rs:UpsamplerGeneric", "src/upsampler.rs:choose_upsampler"]}
{"id": "C40", "title": "Each output line shows its own image row", "statement": "Output line r of a decoded image is computed from row r of the full-resolution components.", "quantifier": "all images", "why_tests_cant": "the row mapping is uniform over all sizes", "anchors": ["src/lib.rs:upsample"]}
{"id": "C41", "title": "The rayon feature does not change the result", "statement": "Decoding with and without the rayon feature gives the same bytes.", "quantifier": "all images and thread schedules", "why_tests_cant": "two builds, all inputs, all schedules", "anchors": ["src/lib.rs:upsample"]}
{"id": "C42", "title": "Malformed input is an error, not a panic", "statement": "decode never panics: malformed or unsupported data is reported through the Result.", "quantifier": "all byte strings", "why_tests_cant": "arbitrary input", "anchors": ["src/lib.rs", "src/huffman.rs", "src/color_conversion.rs"]}
{"id": "C43", "title": "Data after the end of image", "statement": "decode accepts an input whose end-of-image marker is followed by further bytes, or reports an error.", "quantifier": "all decodable inputs and all suffixes", "why_tests_cant": "all suffixes", "anchors": ["src/lib.rs:Decoder::decode"]}
{"id": "C44", "title": "Comments are ignored", "statement": "A comment segment has no effect on the decoded image, whatever it contains.", "quantifier": "all comment payloads, all positions between segments", "why_tests_cant": "payload dependent", "anchors": ["src/lib.rs:do_segment"]}
{"id": "C45", "title": "Whole-file correctness for baseline images", "statement": "For every baseline three-component image given as quantised coefficient blocks with its tables, serialised by the T.81 file format and Huffman procedure, decode returns the image obtained by inverse DCT, upsampling and colour conversion of exactly those coefficients.", "quantifier": "all sizes, tables, coefficient arrays and restart intervals", "why_tests_cant": "whole-decoder statement over all images", "anchors": ["src/lib.rs:decode_parser", "src/lib.rs:decode_scan"]}
{"id": "C46", "title": "Accuracy of the inverse DCT", "statement": "For dequantised coefficients in the range a baseline encoder produces no intermediate of the inverse DCT overflows and each sample differs from the exact real-valued inverse DCT by less than a fixed small bound.", "quantifier": "all coefficient blocks in range", "why_tests_cant": "2048^64 blocks", "anchors": ["src/idct.rs"]}
{"id": "C47", "title": "Images coded in several scans", "statement": "A sequential image whose components are coded in separate scans decodes to the same pixels as when coded in one interleaved scan.", "quantifier": "all images", "why_tests_cant": "all images and scan partitions", "anchors": ["src/lib.rs:sos", "src/lib.rs:decode_scan", "src/lib.rs:Decoder::decode_row"]}
{"id": "C48", "title": "Prefix stability of the parser", "statement": "On a proper prefix of an input whose decoding succeeds, decode reports an unexpected end of input (or has not failed yet in streaming mode) rather than a different image.", "quantifier": "all decodable inputs and all proper prefixes", "why_tests_cant": "all prefixes", "anchors": ["src/lib.rs:decode_parser"]}
{"id": "C49", "title": "Several images on one stream", "statement": "A framed reader over a stream holding several JPEG files one after the other yields the image of each file in turn, the same images that decoding each file on its own gives.", "quantifier": "all sequences of decodable files and all ways of cutting the stream into chunks", "why_tests_cant": "all files, sequences and chunkings", "anchors": ["src/lib.rs:DecoderCodec", "src/lib.rs:DecoderCodec::decode"]}
{"id": "C50", "title": "I/O errors of the reader lose nothing", "statement": "If the reader fails with an I/O error between two reads and the caller calls decode again, no byte already read is lost or used twice: after every I/O error has been reported once the caller gets the image of the bytes delivered.", "quantifier": "all files, chunkings and placements of I/O errors", "why_tests_cant": "all histories of reads and failures", "anchors": ["src/lib.rs:ReadDecoder", "src/lib.rs:ReadDecoder::decode"]}
{"id": "C51", "title": "Unsupported markers are errors", "statement": "A marker the decoder does not support (lossless, differential and arithmetic frames, JPG, DAC, DNL, DHP, EXP, TEM, JPEG extensions, reserved codes) is reported as an error wherever a marker is expected, whatever precedes and follows it; it is never skipped and never makes decode panic.", "quantifier": "all unsupported codes, all inputs before and after, all decoder states", "why_tests_cant": "all inputs and all histories of the decoder", "anchors": ["src/marker.rs:Marker", "src/marker.rs:marker", "src/lib.rs:decode_parser"]}
{"id": "C52", "title": "Pixels of an earlier image never show up later", "statement": "An input that holds no image data of its own never yields an image: the pixels of an earlier image are not returned for a later input.", "quantifier": "all histories of a Decoder and all later inputs", "why_tests_cant": "all histories", "anchors": ["src/lib.rs:Decoder::decode", "src/lib.rs:upsample", "src/lib.rs:Decoder"]}
{"id": "C53", "title": "Baseline and extended sequential frames", "statement": "The same file announced as baseline (SOF0) or as extended sequential (SOF1) gives the same result.", "quantifier": "all files, all places of the frame header, all decoder states", "why_tests_cant": "all files", "anchors": ["src/lib.rs:Frame::coding_process", "src/lib.rs:sos", "src/lib.rs:Decoder::dequantize"]}
{"id": "C54", "title": "Unsupported sample precisions are rejected", "statement": "A frame whose sample precision is not 8 bits is reported as an error.", "quantifier": "all files and all precisions", "why_tests_cant": "all files", "anchors": ["src/lib.rs:sof", "src/lib.rs:Frame"]}
{"id": "C55", "title": "Reduced block transforms", "statement": "Decoding a block at scale n/8 (n = 1, 2, 4, 8) writes exactly an n by n square of samples, the n-point transform of the lowest coefficients; a flat block has the same value at every scale.", "quantifier": "all coefficient blocks, tables, strides, offsets and planes", "why_tests_cant": "all blocks and placements", "anchors": ["src/idct.rs:dequantize_and_idct_block", "src/idct.rs:dequantize_and_idct_block_4x4", "src/idct.rs:dequantize_and_idct_block_2x2", "src/idct.rs:dequantize_and_idct_block_1x1"]}
{"id": "C56", "title": "Choice of the transform size", "statement": "The scale chosen for a requested size is the smallest of 1/8, 2/8, 4/8, 8/8 at which one side of the image is at least as long as requested, and 8/8 if there is none.", "quantifier": "all image sizes and requests", "why_tests_cant": "all pairs of 16-bit sizes", "anchors": ["src/idct.rs:choose_idct_size"]}
{"id": "C57", "title": "Every panic has a known cause", "statement": "A call of decode on any bytes panics only for one of the listed reasons, each a property of the input and of what the decoder has read so far: a segment length below 2, a frame without components, an empty (or oversized) Huffman table, a progressive scan, a frame of more than four components, a band beyond coefficient 63, a table selector above 3, an incomplete scan, an undefined Huffman or quantisation table, more than ten blocks per MCU, no frame, an unsupported number of components, width 0, no scan of all components, YCCK, a width that cannot be doubled, or bytes after EOI. In all other cases it returns an image or an error.", "quantifier": "all byte strings, all decoders a user can hold, all builds", "why_tests_cant": "absence of further panics is a statement about all inputs and histories", "anchors": ["src/lib.rs:Decoder::decode", "src/lib.rs:do_segment", "src/lib.rs:decode_scan", "src/lib.rs:upsample", "src/huffman.rs:Table::new"]}
{"id": "C58", "title": "Bands and runs of ended blocks", "statement": "In a scan for the coefficients Ss..Se shifted by Al, blocks written by the standard's band coding (runs of zeros, EOBn with n extra bits ending the band of this block and of the next 2^n + v - 1 blocks) decode to exactly the written values times 2^Al inside the band and to zero outside it; blocks inside a run read nothing but their DC difference, and the run that is still open afterwards is the one that was written. (False for bands of a single AC coefficient, which are never read.)", "quantifier": "all Huffman tables, bands, shifts, block sequences, runs up to 2^15 - 1 and following data", "why_tests_cant": "the run counter is state carried across arbitrarily many blocks; every split of runs over blocks must agree", "anchors": ["src/lib.rs:decode_block", "src/lib.rs:UnZigZag"]}
{"id": "C59", "title": "Output bounded by the input", "statement": "The size of the returned image, and with it the memory and time of a call, is bounded by a fixed multiple of the size of the input. (False: for every width and height up to 65535 there is a file of 146 bytes, with no scan data, that decodes to an image of that size.)", "quantifier": "all inputs; the refutation: all image sizes", "why_tests_cant": "a bound over all inputs; its violation is shown for every size at once, including sizes no test could allocate", "anchors": ["src/biterator.rs:fill_bits", "src/lib.rs:decode_scan", "src/lib.rs:Decoder::decode"]}
{"id": "C60", "title": "Damage stays inside its restart interval", "statement": "If bytes inside restart intervals of a well-formed file are changed, removed or inserted so that the restart markers stay in place and no other marker arises (every 0xFF in the intervals is followed by 0), decode either reports an error or returns an image in which every sample belonging to an MCU before the damage in its interval, or to any undamaged interval, is exactly what it is for the undamaged file; all other samples still are the inverse transform of some coefficients.", "quantifier": "all well-formed headers (sampling, tables, restart interval, comments), all scans, every choice of damaged intervals and of the bytes in them, all builds", "why_tests_cant": "the reader, the predictors and the marker search carry state across MCUs; resynchronisation must hold for every content of the damaged part, including content that decodes to the wrong number of bits", "anchors": ["src/lib.rs:decode_scan", "src/lib.rs:decode_block", "src/biterator.rs:fill_bits", "src/biterator.rs:reset"]}
{"id": "C61", "title": "Lossless transcoding does not change the image", "statement": "Two well-formed files that carry the same quantised coefficients, quantisation values, image size, sampling factors and Adobe transform decode to the same bytes (or to the same error), however they are written: Huffman tables, restart interval, kind of frame and precision byte, component identifiers, table slots, order, number and repetition of segments, comments, application segments, fill bytes and padding may all differ.", "quantifier": "all pairs of well-formed files with the same coefficients, all builds", "why_tests_cant": "relates two arbitrary encodings of the same picture; the state of the decoder (tables, predictors, bit buffer, restart counter) differs at every step of the two runs", "anchors": ["src/lib.rs:Decoder::decode", "src/lib.rs:decode_scan", "src/lib.rs:decode_block", "src/huffman.rs:HuffmanTable::decode"]}
{"id": "C62", "title": "Decoded pixels are close to the exact image", "statement": "For every well-formed file of an image in YCbCr whose blocks are not extreme (sum of the dequantised coefficients of a block at most 1472), each byte of the returned image differs by less than three from the colour computed with real numbers from the coefficients in the file: inverse DCT of T.81, limited to 0..255, then BT.601. With subsampled components the error grows by at most the rounding of the interpolation, with inverted CMYK it is below one. With larger coefficients the same holds with a bound that grows slowly with their sum, as long as the exact samples do not lie far outside 0..255.", "quantifier": "all well-formed files with blocks of moderate magnitude, every pixel, all builds", "why_tests_cant": "an error bound for the composition of bit reader, Huffman decoding, dequantisation, fixed-point transform, upsampling and colour tables over all coefficient combinations", "anchors": ["src/lib.rs:Decoder::decode", "src/idct.rs:dequantize_and_idct_block_8x8_inner", "src/color_conversion.rs:ycbcr_to_rgb", "src/upsampler.rs:Upsampler"]}
{"id": "C63", "title": "Arbitrary scan data is read like a plain bit-by-bit decoder reads it", "statement": "Whatever bytes stand where the entropy-coded data of a sequential image should be (with any restart markers between them), the lookup tables, the 64-bit buffer and the combined code/value shortcuts of the decoder make no difference: if a reference decoder that works on the list of bits, one code and one number at a time, finds all MCUs, the answer is exactly the one for these MCUs; if it meets bits that begin with no code, a DC size above 11, or a missing or wrong restart marker, the answer is an error. The reference may read zero bits past the end of an interval when none of its last seven bytes is 0xFF; otherwise it works with the bits that are there, and the error case is not claimed.", "quantifier": "all headers of sequential images, all byte strings and restart markers as scan data, all builds", "why_tests_cant": "equivalence of an optimised decoder with a reference over all bit strings and all Huffman tables", "anchors": ["src/lib.rs:Decoder::decode_block", "src/biterator.rs:Biterator", "src/huffman.rs:HuffmanTable", "src/huffman.rs:AcHuffmanTable", "src/lib.rs:Decoder::process_scan"]}
{"id": "C64", "title": "Progressive images are decoded or refused with an error", "statement": "A file with a progressive frame header (SOF2) is either decoded to its pixels or the call returns an error that says that progressive images are not supported. It never makes the call panic.", "quantifier": "all frame headers, all tables and other segments before the scan, all scan headers and all bytes after it; all decoders a user can hold and all builds", "why_tests_cant": "the answer has to be the same for every header, every table set and every history of the decoder; a test shows it for one file", "anchors": ["src/lib.rs:Decoder::sos", "src/lib.rs:Frame::coding_process", "src/lib.rs:CodingProcess"]}
{"id": "C65", "title": "Images of one colour decode to one colour", "statement": "A file whose components are flat (every block has the same DC value and no AC coefficients) decodes to an image in which all pixels are equal, and their value is the colour that the DC values and the quantisation tables stand for. This holds for every size, all sampling factors and all partial blocks at the edges.", "quantifier": "all well-formed three- and four-component baseline files with flat components: all sizes, sampling factors, tables, DC values, restart intervals, further segments and builds", "why_tests_cant": "block edges, partial MCUs, all six up-sampling methods and the colour conversion meet in a way that depends on the size and the sampling factors; a test fixes all of them", "anchors": ["src/lib.rs:decode_scan", "src/idct.rs:dequantize_and_idct_block_8x8", "src/upsampler.rs:UpsamplerGeneric", "src/upsampler.rs:UpsamplerH2V2", "src/color_conversion.rs:ycbcr_to_rgb"]}
{"id": "C66", "title": "Grey images decode to grey pixels", "statement": "If both chroma components of a YCbCr file are zero everywhere, then every pixel of the decoded image is grey (three equal bytes) and its value is the sample of the luma component, whatever the luma component contains.", "quantifier": "all well-formed three-component baseline files with zero chroma blocks: all luma coefficients, sizes, sampling factors, tables, restart intervals and builds", "why_tests_cant": "it has to hold for every luma content and for each combination of size and sampling factors; rounding or up-sampling errors of one would tint some images", "anchors": ["src/lib.rs:decode_scan", "src/upsampler.rs:UpsamplerGeneric", "src/color_conversion.rs:ycbcr_to_rgb"]}
{"id": "C67", "title": "The frame of the decoder is the header of the file", "statement": "After a call of Decoder::decode the public field `frame` describes the frame header of the bytes of that call (size, precision, components, sampling factors and the geometry derived from them), also when the call returned an error or panicked after the header. It never holds anything that is not in the input or was not there before the call, and input without a frame header leaves it alone.", "quantifier": "all decoders (fresh or used), all inputs and outcomes; for the exact value all headers of well-formed segments in any order followed by any bytes without another SOF0..SOF2 marker, both builds", "why_tests_cant": "a user reads the size from the field after a failed or partial decode; it has to be right for every header, every kind of damage after it and every history of the decoder", "anchors": ["src/lib.rs:Decoder::frame", "src/lib.rs:Decoder::do_segment", "src/lib.rs:sof", "src/lib.rs:Decoder::decode"]}
{"id": "C68", "title": "Only the dequantised coefficients matter", "statement": "Two files of the same size, sampling factors and Adobe transform get the same answer from Decoder::decode if the products of their coefficients and their (non-zero) quantisation values are the same, even if the tables and the coefficients themselves differ.", "quantifier": "all pairs of encoded interleaved sequential files, all tables without zeros, all coefficients with equal products, all sizes and factors, both builds, with and without rayon", "why_tests_cant": "the inverse transform takes shortcuts that look at the coefficients and not at the products; that no choice of shortcut shows in the pixels is a statement about all blocks and tables", "anchors": ["src/idct.rs:dequantize_and_idct_block_8x8", "src/idct.rs:dequantize", "src/lib.rs:Decoder::dequantize", "src/lib.rs:Decoder::decode"]}
{"id": "C69", "title": "Cutting out MCUs cuts out pixels", "statement": "If the MCUs of one file are a rectangle of the MCUs of another (lossless cropping), then the pixels of its image are the pixels of the other image at that place: every pixel when no component is subsampled, and otherwise every pixel that interpolation across the cut does not reach (one column at the left, four at the right, one group of lines at the top). In the parallel build this holds without vertical subsampling.", "quantifier": "all pairs of encoded files that decode to an image, all sizes, positions of the cut, sampling factors, tables and coefficients", "why_tests_cant": "it says that no pixel depends on blocks elsewhere in the image, on the width of the image or on the position of its block, for all images and all cuts", "anchors": ["src/lib.rs:Decoder::decode", "src/lib.rs:Decoder::dequantize", "src/upsampler.rs:Upsampler::upsample_and_interleave_row", "src/lib.rs:Frame"]}
{"id": "C70", "title": "Decoding undoes encoding", "statement": "Whatever baseline image is encoded (any size up to 65535 x 65535, one to four components, any sampling factors with at most ten blocks per MCU, any quantisation tables, any coefficients in range, any restart interval and Adobe transform), decoding the bytes of the encoder gives the answer those coefficients stand for: the image computed from exactly those coefficients, or the refusal or panic that the size and sampling factors lead to. Any other file of the same coefficients gets the same answer.", "quantifier": "all images given by their quantised coefficients; both build profiles, with and without the parallel feature", "why_tests_cant": "an encoder and a decoder agree on all images only if every symbol, every bit position, every stuffed byte and every restart marker is handled; tests cover some images", "anchors": ["src/lib.rs:Decoder::decode", "src/huffman.rs", "src/biterator.rs:Biterator"]}
{"id": "C71", "title": "Every picture made of tiles can be reproduced exactly", "statement": "For every size from 1 x 1 to 65535 x 65535 and every choice of four ink values for every 8 x 8 tile there is a file that decodes to exactly that picture, pixel by pixel; for three components the pixels have the colours that the YCbCr conversion gives for the values of the tiles.", "quantifier": "all sizes, all assignments of byte values to tiles and components, both build profiles, with and without the parallel feature", "why_tests_cant": "the number of pictures is unbounded, and the property fixes every pixel of every one of them, at the edges as well", "anchors": ["src/lib.rs:Decoder::decode", "src/idct.rs:dequantize_and_idct_block_8x8", "src/upsampler.rs:Upsampler::upsample_and_interleave_row", "src/color_conversion.rs"]}
{"id": "C72", "title": "Pictures survive transform, quantisation, encoding and decoding", "statement": "When the samples of a picture are transformed by the forward DCT, quantised by rounding to multiples of the quantisation values and encoded without subsampling, decoding returns the picture with an error bounded by a fixed multiple of the size of the quantisation tables (CMYK: every byte within 1.9904 + 1.0014 e, where e is half the Euclidean norm of the largest table). In particular, for every CMYK picture of any size there is a file that decodes to it within 5 per byte, and for every RGB picture one that decodes to it within 15, 13 and 18 for red, green and blue. With subsampled components the same holds against the picture that interpolating the transformed planes without rounding would give, with the rounding of the interpolation added to the error.", "quantifier": "all sizes, all pictures, all quantisation tables up to the stated size, all files that encode the quantised picture, both build profiles, with and without the parallel feature", "why_tests_cant": "the pictures and tables are unbounded in number; the bound holds for the worst block, which no sample of pictures finds", "anchors": ["src/lib.rs:Decoder::decode", "src/idct.rs:dequantize_and_idct_block_8x8", "src/upsampler.rs:Upsampler::upsample_and_interleave_row", "src/color_conversion.rs"]}
{"id": "C73", "title": "Turning the coefficients upside down turns the picture upside down", "statement": "When the rows of MCUs of a file are put in the opposite order and the coefficients of odd vertical frequency change sign (a lossless flip), the decoded image is the original one upside down, pixel for pixel; likewise for left and right with the columns and the odd horizontal frequencies.", "quantifier": "all files with a whole number of MCU rows, all coefficients and tables, both build profiles, with and without the parallel feature", "why_tests_cant": "exactness depends on the rounding of every intermediate value of the inverse transform for every block; a test samples a few blocks and misses the ties", "anchors": ["src/idct.rs:dequantize_and_idct_block_8x8", "src/lib.rs:Decoder::decode", "src/upsampler.rs:Upsampler::upsample_and_interleave_row"]}
{"id": "C74", "title": "Components do not disturb one another", "statement": "Two files of the same size, sampling factors and colour transform in which some components have the same dequantised coefficients: with four components, the bytes of those components are the same in every pixel of both images, whatever the other components contain; with three components and the same luminance, the red bytes do not depend on the blue-difference component and the blue bytes not on the red-difference component. If one file gives an image, so does the other.", "quantifier": "all pairs of files of interleaved sequential images of positive size, all sizes, sampling factors, coefficients, Huffman and quantisation tables, both build profiles, with and without the parallel feature", "why_tests_cant": "interference between components (shared predictors, buffers, swapped planes, a wrong stride) shows only for particular geometries and data; the claim compares all pairs of files", "anchors": ["src/lib.rs:Decoder::decode", "src/lib.rs:Decoder::dequantize", "src/upsampler.rs:Upsampler::upsample_and_interleave_row", "src/color_conversion.rs:color_convert_line_ycbcr"]}
{"id": "C75", "title": "Raising the DC coefficients makes the picture uniformly brighter", "statement": "When the dequantised DC coefficients of a component are raised by 8 n in every block, every sample of that component is raised by exactly n before it is limited to 0..255: with four components the (inverted) byte falls by n, with three components and the luminance raised all three bytes of a pixel rise by n, as long as nothing is cut off; where values are cut off the change lies between 0 and n.", "quantifier": "all pairs of files that differ in this way, all sizes, sampling factors, coefficients, tables and n >= 0, both build profiles, with and without the parallel feature", "why_tests_cant": "rounding in the two passes of the inverse transform, interpolation and colour conversion must commute with the shift for every block and pixel", "anchors": ["src/idct.rs:dequantize_and_idct_block_8x8", "src/upsampler.rs:Upsampler::upsample_and_interleave_row", "src/color_conversion.rs:ycbcr_to_rgb"]}
{"id": "C76", "title": "Changing an MCU changes only the pixels near it", "statement": "Two files of the same size, sampling factors, quantisation tables and colour transform whose MCUs differ in some places: a pixel is the same in both images if its own MCU is the same and no component is subsampled, and with subsampled components if also the MCUs of the neighbouring column and of the few lines above it (as many as the largest vertical factor) are the same. If one file gives an image, so does the other.", "quantifier": "all pairs of files of interleaved sequential images of positive size, all sizes, sampling factors, coefficients and tables, both build profiles, with and without the parallel feature", "why_tests_cant": "a wrong stride, block number or neighbour moves pixels only for particular geometries, positions and sizes; the claim is about all pairs of images and all pixels", "anchors": ["src/lib.rs:Decoder::dequantize", "src/lib.rs:Decoder::decode", "src/upsampler.rs:Upsampler::upsample_and_interleave_row"]}
{"id": "C77", "title": "Transposed coefficients give the transposed picture up to rounding", "statement": "If lines and columns are exchanged in the size, in the order of the MCUs, in every block of coefficients and in every quantisation table, the decoded picture is the original one with lines and columns exchanged, up to the rounding of the two passes of the inverse transform. Turned upside down and transposed, it is the picture after a quarter turn.", "quantifier": "all pairs of files of interleaved sequential images of positive size without subsampling whose blocks are moderate, all sizes, coefficients and tables, three or four components, both build profiles, with and without the parallel feature", "why_tests_cant": "the passes over columns and rows of a block are different pieces of code with different scaling and rounding; that they agree to within one step for all coefficients, and that strides, rows and columns are never confused for any size, cannot be sampled", "anchors": ["src/idct.rs:dequantize_and_idct_block", "src/lib.rs:Decoder::dequantize", "src/lib.rs:Decoder::decode", "src/upsampler.rs:Upsampler::upsample_and_interleave_row"]}
{"id": "C78", "title": "A streaming decoder notices that a file is damaged", "statement": "Once all bytes of a file have been handed to the streaming decoder it gives an answer, an image or an error, and does not go on asking for more. If the scan data can be read (even if no encoder wrote them) the call that completes the file gives the answer of decoding the file at once and leaves the bytes behind it; if they cannot, the decoder reports an error.", "quantifier": "all files of interleaved sequential images of positive size with any bytes as scan data, all ways to cut them, any bytes following, both build profiles, with and without the parallel feature", "why_tests_cant": "it ranges over all damaged data, all cuts and all continuations; a decoder that waits for ever is not told apart from one that needs a few more bytes by any finite test", "anchors": ["src/lib.rs:DecoderCodec::decode", "src/lib.rs:Decoder::decode_row", "src/lib.rs:Decoder::decode_block", "src/biterator.rs:Biterator", "src/huffman.rs:HuffmanTable::decode"]}
{"id": "C79", "title": "A streaming decoder keeps a bounded number of bytes", "statement": "While the streaming decoder asks for more, its buffer holds a bounded number of the bytes it was given, however large the file is: everything it has dealt with is dropped, and what it holds is at most one segment or one MCU.", "quantifier": "all byte streams, all ways to cut them into pieces, after every piece, both build profiles, with and without the parallel feature", "why_tests_cant": "a bound on the memory held has to hold for files of every size, all cuts and all contents; a test sees the buffer after a few pieces of a few files", "anchors": ["src/lib.rs:DecoderCodec::decode", "src/lib.rs:Decoder::do_segment", "src/lib.rs:Decoder::decode_row", "src/biterator.rs:Biterator::fill_bits", "src/lib.rs:segment"]}
{"id": "C80", "title": "An error is final", "statement": "If decoding some bytes reports an error other than the end of the input (or panics), decoding the same bytes with anything behind them does the same: no later byte can turn a rejected beginning into an image.", "quantifier": "all byte strings, all continuations, all decoders reached by earlier calls, both build profiles, with and without the parallel feature", "why_tests_cant": "it ranges over all continuations of all rejected inputs", "anchors": ["src/lib.rs:Decoder::decode", "src/lib.rs:decode_parser", "src/lib.rs:upsample", "src/lib.rs:Decoder::decode_block", "src/biterator.rs:Biterator::next_bits"]}
{"id": "C81", "title": "Memory is bounded by the declared size", "statement": "A decoder never holds more samples than a frame header of its input accounts for: for each of at most four components, the declared lines and samples per line rounded up to whole MCUs (at most 31 more each way), once for the planes of the last scan and once for the planes under construction, plus a fixed block buffer. That memory is taken at the scan header, before any scan data is read, so a file of 200 bytes can make the decoder take it for any declared size.", "quantifier": "all byte strings, all states passed through, all decoders and codecs with any history, both build profiles, with and without the parallel feature; for the time at which memory is taken, all headers and any bytes behind the scan header", "why_tests_cant": "it ranges over all states of all runs on all inputs, and the largest sizes cannot be allocated in a test", "anchors": ["src/lib.rs:Decoder::decode_scan", "src/lib.rs:Decoder::dequantize", "src/lib.rs:Decoder::sof", "src/lib.rs:ScanState", "src/lib.rs:Decoder::planes"]}
{"id": "C82", "title": "A blocking reader reads no more than it needs", "statement": "A call of ReadDecoder::decode reads from its source only while the bytes it holds leave the parser waiting; it returns as soon as they hold an answer, whatever the source would deliver or report later, leaves the rest of the source unread, and keeps every byte it read but did not use for the next call.", "quantifier": "all states of a ReadDecoder, all contents of the source and all ways it delivers them, with I/O errors anywhere, all builds", "why_tests_cant": "A reader that asks for one read too many still returns the right image from a file or a byte slice; it hangs only on a source that has nothing more to give at that moment.", "anchors": ["src/lib.rs: ReadDecoder::decode", "src/lib.rs: decode_parser"]}
{"id": "C83", "title": "Reading image after image agrees with a framed stream", "statement": "Calling ReadDecoder::decode again after every image gives the same images in the same order, and the same error or panic after them, as a framed stream over DecoderCodec that receives the same pieces; at the end of the input the framed stream ends (with an error if bytes are left) and the reader reports the end of the input.", "quantifier": "all sequences of pieces of any bytes, from any state of the codec, all builds", "why_tests_cant": "The two loops hold parser state, bit buffer and bytes in different places; a test compares them on a few streams, with images that end where a piece ends.", "anchors": ["src/lib.rs: ReadDecoder::decode", "src/lib.rs: DecoderCodec::decode"]}
{"id": "C84", "title": "Changing the sign of all coefficients gives the negative of the picture", "statement": "When every dequantised coefficient of an image is replaced by its opposite, the decoder accepts the new file too and answers the negative of the picture: every sample v of a component becomes 256 - v up to rounding, so that with three components each byte and its counterpart add up to 256 within a few units, and with four (inverted) components to 254.", "quantifier": "all pairs of files that differ in this way, all sizes, sampling factors, coefficients and tables, both build profiles, with and without the parallel feature; every image has such a negative unless a DC coefficient is the least possible one", "why_tests_cant": "rounding in both passes of the inverse transform, limiting, interpolation and colour conversion must all be symmetric up to a bounded error for every block and pixel", "anchors": ["src/idct.rs:dequantize_and_idct_block_8x8", "src/upsampler.rs:Upsampler::upsample_and_interleave_row", "src/color_conversion.rs:ycbcr_to_rgb"]}
{"id": "C85", "title": "Adding the coefficients of two images adds the pictures", "statement": "When the dequantised coefficients of a third image are the sums of those of two others (cross-fading, watermarking or averaging on coefficients), its picture is the sum of theirs relative to mid-grey, up to rounding and as long as nothing is cut off: with four (inverted) components every byte is the sum of the other two minus 127 within two, with three components minus 128 within seven (one and four without subsampling).", "quantifier": "all triples of files related in this way, all sizes, sampling factors, coefficients and tables, both build profiles, with and without the parallel feature", "why_tests_cant": "the rounding errors of both passes of the inverse transform, of the interpolation and of the colour conversion must stay bounded together for every triple of blocks and every pixel", "anchors": ["src/idct.rs:dequantize_and_idct_block_8x8", "src/upsampler.rs:Upsampler::upsample_and_interleave_row", "src/color_conversion.rs:ycbcr_to_rgb"]}
{"id": "C86", "title": "A malformed segment ends the call", "statement": "Wherever a segment is expected, a frame header, Huffman table, scan header, quantisation table, restart interval or APP14 segment whose contents the format does not allow is never passed over: decode returns no image, and its answer does not depend on what follows. The answer is an error, except for a frame header without components and a Huffman table without codes (or, in a debug build, with more than 256), which panic. A scan header is also refused if it does not name one to four components of the frame in the order of the frame, or if there is no frame. After every well-formed segment the decoder goes on with the next one.", "quantifier": "all decoders, all bytes before the segment after which a segment is expected, all contents, all bytes after it, both build profiles", "why_tests_cant": "The contents and everything that follows are arbitrary; a parser that skips a bad table, or takes it, would show only on the particular malformed input.", "anchors": ["src/lib.rs: do_segment, sof, huffman_table, dqt, sos_segment, app_adobe", "src/huffman.rs: BaseTable::new, AcTable::new"]}
{"id": "C87", "title": "Nearly the same coefficients give nearly the same picture", "statement": "If the dequantised coefficients of every block of one image differ by at most e in all (the absolute differences added up) from those of the same block of another image of the same size, sampling factors and colour transform, then both decode, and no byte of any pixel differs by more than (e+5)/4 with four components or three times that with three. So quantising an image again with other tables changes the picture by no more than the new quantisation values allow.", "quantifier": "all pairs of images of any size and accepted sampling factors, all quantisation tables, Huffman tables, restart intervals and segment orders, all e, both build profiles and both upsampling paths", "why_tests_cant": "The claim compares every image with every image near it; a jump of the inverse transform, of the limiting of samples, of the upsampling or of the colour conversion shows only at the values where it happens.", "anchors": ["src/idct.rs: dequantize_and_idct_block_8x8_inner, kernel", "src/upsampler.rs: UpsamplerH2V1, UpsamplerH1V2, UpsamplerH2V2", "src/color_conversion.rs: color_convert_line_ycbcr, ycbcr_to_rgb, color_convert_line_cmyk"]}
{"id": "C88", "title": "The mean of a block is its DC coefficient", "statement": "In an image without subsampling, the 64 bytes that an 8 x 8 square of the picture shows of one ink have the mean 127 - DC/8 up to 33/64, where DC is the dequantised DC coefficient of the block, whatever its other coefficients are, as long as no sample of the block is cut off; for a grey image each byte of the pixels has the mean 128 + DC/8 up to 33/64. (So a thumbnail can be made from the DC coefficients alone.)", "quantifier": "all images of any size without vertical subsampling, all components that are not subsampled, all squares inside the picture, all coefficients and quantisation tables for which nothing is cut off, both build profiles, with and without rayon", "why_tests_cant": "The error bound has to hold for every combination of 63 other coefficients; a slightly wrong constant of the transform shifts the mean only for some of them.", "anchors": ["src/idct.rs: dequantize_and_idct_block_8x8_inner, kernel", "src/color_conversion.rs: color_convert_line_cmyk, color_convert_line_ycbcr"]}
{"id": "C89", "title": "The bytes of a pixel are in the order of the components", "statement": "If the components of a four-component image are put into another order (sampling factors, quantisation tables and coefficients together), the file still decodes, and every pixel has the same bytes in that order. Component identifiers, table numbers and Huffman tables have no influence on the order.", "quantifier": "all images with four components of any size, sampling factors, tables and coefficients, all permutations, both build profiles, with and without rayon", "why_tests_cant": "A decoder that treats one position specially (a wrong plane, stride or table for one component) goes unnoticed unless that position has its own factors and tables in the test image; the claim covers all combinations.", "anchors": ["src/lib.rs: sof, sos_segment, decode_scan, dequantize", "src/upsampler.rs: Upsampler::new, upsample_and_interleave_row", "src/color_conversion.rs: color_convert_line_cmyk"]}
{"id": "C90", "title": "Only the ratios of the sampling factors matter", "statement": "Two files of the same size with the same quantisation tables and the same blocks inside the image, whose components have the same ratios to the largest sampling factors (for example 2, 1, 1 and 4, 2, 2, or equal factors of any size), decode to the same pixels. Blocks that only fill up the last MCUs have no influence.", "quantifier": "all images with three or four components, all sizes, all pairs of lists of factors with the same ratios, all contents of the filling blocks, both build profiles, with and without rayon", "why_tests_cant": "Test images use the usual factors and encoders fill with copies of the edge, so a decoder that reads beyond the edge or mistakes a factor for a ratio is not noticed.", "anchors": ["src/lib.rs: sof, decode_scan, upsample", "src/upsampler.rs: Upsampler::new, choose_upsampler, upsample_and_interleave_row"]}
{"id": "C91", "title": "Subsampling a flat component makes no difference", "statement": "If a component of an image has the same value everywhere (for example the chroma of a picture with a single tint), it may be stored with any sampling factors: the file with the subsampled component and the file with the full one decode to the same pixels, with all other components stored at the same ratios and with the same blocks inside the image.", "quantifier": "all images with three or four components, all sizes, all sampling factors for which no columns are left out, any choice of flat components, any quantisation tables, both build profiles, with and without rayon", "why_tests_cant": "Each pair of sampling factors selects its own interpolation code with its own handling of edges; the claim is about all pairs at all sizes.", "anchors": ["src/lib.rs: sof, decode_scan, upsample", "src/upsampler.rs: choose_upsampler, UpsamplerH2V1, UpsamplerH1V2, UpsamplerH2V2, UpsamplerGeneric"]}
{"id": "C92", "title": "The order and grouping of the header segments do not matter", "statement": "Quantisation tables, Huffman tables, the restart interval, the frame header, the Adobe transform, comments and other application segments may come in any order, in any grouping of tables into segments and with any fill bytes, as long as the last definition of each thing stays the same: whatever bytes follow, the decoder returns the same image or error and is left in the same state. In particular segments no two of which define the same thing may be permuted freely, and a table that is redefined before it is used has no effect.", "quantifier": "all reachable decoders, all inputs up to a place between segments, all pairs of lists of well-formed header segments with the same last definitions, all permutations, all following bytes, all build profiles, with and without rayon", "why_tests_cant": "The orders, groupings and repetitions of segments combined with arbitrary following data are unbounded; tests fix a few encoders' orders.", "anchors": ["src/lib.rs: do_segment", "src/lib.rs: decode_parser", "src/lib.rs: huffman_table", "src/lib.rs: dqt"]}
{"id": "C93", "title": "Tables that an image does not use have no effect", "statement": "Adding definitions of quantisation or Huffman tables for destinations that a file does not define itself, anywhere in its header and in any number, does not change the image: if the file decodes to an image without them, it decodes to the same image with them, whatever bytes follow the header.", "quantifier": "all pairs of headers of which one defines everything the other does in the same way, all following bytes (valid or not), all build profiles, with and without rayon, fresh decoders", "why_tests_cant": "The following bytes, the tables and the places for them are unbounded, and a decoder that mixes up destinations may only show it with particular selectors.", "anchors": ["src/lib.rs: do_segment", "src/lib.rs: Decoder::decode_row", "src/lib.rs: huffman_table", "src/lib.rs: dqt", "src/lib.rs: sos"]}
{"id": "C94", "title": "Missing, repeated and stray markers without a segment are ignored", "statement": "A start-of-image marker or a restart marker, with any number of fill bytes, at a place where the decoder looks for the next segment (before the first segment, between segments, behind a scan) has no effect on the image, the error or the decoder afterwards. In particular the start-of-image marker of a file may be missing or repeated.", "quantifier": "all reachable decoders, all inputs up to a place where a marker is looked for, all following bytes, all build profiles, with and without rayon", "why_tests_cant": "The bytes before and after the marker and the history of the decoder are unbounded.", "anchors": ["src/lib.rs:do_segment", "src/lib.rs:decode_parser"]}
{"id": "C95", "title": "Decoding complete files again or in any order gives the answers of fresh decoders", "statement": "A file that brings its own tables, decoded any number of times with the same decoder, gives the same answer every time. More generally, when one decoder decodes any sequence of such files, in any order and with any repetitions, every file gets the answer a fresh decoder gives it (the same image, error or panic).", "quantifier": "all sequences of encoded files of any length, all numbers of repetitions, all build profiles, with and without rayon", "why_tests_cant": "The files, their number and their order are unbounded.", "anchors": ["src/lib.rs:Decoder", "src/lib.rs:do_segment", "src/lib.rs:decode_scan"]}
{"id": "C96", "title": "Blocks outside the image have no effect", "statement": "An image whose size is not a multiple of its MCUs is coded with blocks to the right of it and below it. Whatever these blocks contain, the decoded picture is the same byte for byte, also where subsampled components are interpolated at the edge of the image.", "quantifier": "all pairs of encoded files of the same size, sampling factors and quantisation whose blocks agree as far as they overlap the image; all sizes, sampling factors, build profiles, with and without rayon", "why_tests_cant": "Sizes, sampling factors and the contents of the blocks are unbounded.", "anchors": ["src/lib.rs:decode_parser", "src/upsampler.rs:Upsampler"]}
{"id": "C97", "title": "Bytes behind the coded data of a scan have no effect", "statement": "Bytes between the end of the coded MCUs and the next marker, in every restart interval, and further restart markers and intervals after the last MCU do not change the answer: the same image, error or panic as without them.", "quantifier": "all encoded files, all scan data that begins each restart interval with the same MCUs and goes on with any bytes (0xFF stuffed), all build profiles, with and without rayon", "why_tests_cant": "The number and values of the extra bytes, and how they meet the read-ahead of the bit reader, are unbounded.", "anchors": ["src/lib.rs:decode_scan", "src/lib.rs:restart_parser", "src/biterator.rs:Biterator", "src/marker.rs:marker"]}
{"id": "C98", "title": "Bits that are missing at the end of the data count as zeros", "statement": "Where the entropy-coded data of a restart interval, or of the whole scan, stop before all MCUs are coded, the missing bits count as zeros: a file with any scan data gets the same answer as one with zero bytes added in front of the next marker, or both get an error.", "quantifier": "all headers of interleaved sequential images, all scan data between restart markers, any number of zero bytes added to each interval, all build profiles, with and without rayon", "why_tests_cant": "The place where data stop, the bits before it and the number of added bytes are unbounded, and what is read depends on how they meet the read-ahead of the bit reader.", "anchors": ["src/biterator.rs:Biterator", "src/lib.rs:decode_scan", "src/lib.rs:restart_parser"]}
{"id": "C99", "title": "A decoded image can be written again as a regular file", "statement": "Whatever bytes the scan of a file consists of, damaged, cut short or padded ones included: if MCUs can be read from it and their DC values have at most eleven bits, a plain encoder can write these MCUs, with any restart interval, into a regular file that gets the same answer, so repairing a file by re-encoding it without loss keeps the image.", "quantifier": "all headers of interleaved sequential images, all scan data between restart markers, all restart intervals of the new file, all build profiles, with and without rayon", "why_tests_cant": "Scan data, sizes, tables and restart intervals are unbounded; the coefficients that arbitrary bytes decode to must all be ones that can be coded again.", "anchors": ["src/lib.rs:decode", "src/lib.rs:decode_block", "src/lib.rs:decode_scan", "src/huffman.rs:AcTable", "src/biterator.rs:Biterator"]}
