{"id": "C01", "title": "Range coder round trip", "statement": "Encode any sequence of symbols with the arithmetic coder (init_encoder, one encode_symbol per symbol, exit_encoder), each symbol against any member of a set of adaptive CDFs that start out valid. Decoding the produced bits (init_decoder, one decode_symbol per symbol with the same CDF choices and the same starting CDFs) returns exactly the original symbols, in order, whatever bits follow the coded segment.", "quantifier": "every alphabet size >= 2, every set of valid starting CDFs, every finite sequence of (CDF choice, symbol) pairs, every trailing bit string", "why_tests_cant": "the state space is the product of all coder states, all adapted CDFs and all histories; carry chains of unbounded length appear only for special symbol sequences", "anchors": ["src/bool_coder.rs: BoolCoder::{init_encoder,encode_symbol,exit_encoder,init_decoder,decode_symbol}"]}
{"id": "C02", "title": "Encoder and decoder adapt in lockstep", "statement": "After the same sequence of symbols the CDFs held by the decoder are equal, entry for entry, to the CDFs held by the encoder.", "quantifier": "every valid set of starting CDFs and every finite symbol sequence", "why_tests_cant": "a divergence may need an arbitrarily long history (rate changes after 32 symbols, rounding) before it shows", "anchors": ["src/bool_coder.rs: encode_symbol (update cdf)", "src/bool_coder.rs: decode_symbol (update cdf)"]}
{"id": "C03", "title": "Adaptation keeps CDFs valid", "statement": "If a CDF is valid (entries strictly increasing, first entry positive, last probability entry 32768, counter between 0 and 32) then it is still valid, with the same length, after coding any symbol of its alphabet; hence after any number of symbols.", "quantifier": "every alphabet size from 2 to 16, every valid CDF, every symbol, every history", "why_tests_cant": "there are about 2^15-choose-(N-1) CDFs per alphabet; an off-by-one in rounding would break only the extreme ones", "anchors": ["src/bool_coder.rs: encode_symbol (update cdf)", "src/bool_coder.rs: decode_symbol (update cdf)"]}
{"id": "C04", "title": "Encoder is safe and terminates", "statement": "With valid CDFs and in-range symbols the encoder never panics (no index out of bounds, no i32 overflow, no subtract overflow) and its renormalisation loop always stops, after at most 15 steps per symbol.", "quantifier": "every valid CDF, every in-range symbol, every reachable coder state", "why_tests_cant": "termination and absence of overflow are universally quantified over reachable states", "anchors": ["src/bool_coder.rs: encode_symbol", "src/bool_coder.rs: exit_encoder"]}
{"id": "C05", "title": "Decoder never runs out of bits", "statement": "Decoding exactly the symbols that were encoded never asks the bit queue for more bits than the encoder produced (the `assert!(false)` on an empty queue is unreachable), even when nothing follows the segment.", "quantifier": "every valid symbol sequence and CDF set, with an empty tail", "why_tests_cant": "the margin is exact (15 initial bits + one per renormalisation step versus 16 flushed bits), so one missing bit would only show for some sequences", "anchors": ["src/bool_coder.rs: init_decoder", "src/bool_coder.rs: decode_symbol", "src/bool_coder.rs: exit_encoder"]}
{"id": "C06", "title": "Compression bound", "statement": "A symbol whose probability under the current CDF is at least 2^-k adds at most k bits to the stream; the whole segment is at most 15 bits (plus up to 7 padding bits) longer than the sum of these costs, and never shorter than 15 bits.", "quantifier": "every valid CDF set and every symbol sequence", "why_tests_cant": "a worst-case bound on all coder states; sampling only shows the average", "anchors": ["src/bool_coder.rs: encode_symbol", "src/bool_coder.rs: exit_encoder"]}
{"id": "C07", "title": "Coded segment is byte aligned", "statement": "The bits appended between init_encoder and exit_encoder by a freshly created coder form a whole number of bytes.", "quantifier": "every valid symbol sequence on a new BoolCoder", "why_tests_cant": "alignment depends on the total number of renormalisation shifts of an arbitrary sequence", "anchors": ["src/bool_coder.rs: exit_encoder", "src/bool_coder.rs: bit_count"]}
{"id": "C08", "title": "Byte alignment survives coder reuse", "statement": "A second init_encoder/encode/exit_encoder session on the same BoolCoder (as done for one tile after another) also appends a whole number of bytes.", "quantifier": "every pair of sessions on one BoolCoder", "why_tests_cant": "needs a particular residue of the first session's length; a single-session test never sees it", "anchors": ["src/bool_coder.rs: init_encoder", "src/bool_coder.rs: exit_encoder", "src/tile_encoder.rs: encode_tile"]}
{"id": "C09", "title": "Raw probability bits round trip", "statement": "A bit coded with encode_symbolp(p), a run of bits coded with encode_symbols(p) and an n-bit literal coded with encode_literal, interleaved in any order with adaptive symbols in one segment, are returned unchanged by the matching decode calls in the same order.", "quantifier": "every p in 0..=255, every literal width 0..=64 and value, every interleaving", "why_tests_cant": "mixture of calls and histories is unbounded", "anchors": ["src/bool_coder.rs: encode_symbolp, encode_symbols, encode_literal, decode_symbolp, decode_symbols, decode_literal"]}
{"id": "C10", "title": "Decoder stops at the end of the segment", "statement": "After decoding all symbols of a segment of sz bytes, exit_decoder leaves the bit queue exactly at the first bit after the segment.", "quantifier": "every valid symbol sequence and every tail", "why_tests_cant": "depends on the exact number of bits consumed, which varies with every sequence", "anchors": ["src/bool_coder.rs: exit_decoder", "src/bool_coder.rs: bool_max_bits"]}
{"id": "C11", "title": "Encoding only appends", "statement": "Every encoding call leaves the bits already in the output buffer untouched, and the bits it appends do not depend on what was there before.", "quantifier": "every buffer content, every symbol sequence, every coder state", "why_tests_cant": "carry propagation is normally implemented by rewriting earlier output; showing that it never happens here needs all states", "anchors": ["src/bool_coder.rs: encode_symbol, exit_encoder"]}
{"id": "C12", "title": "Distinct messages get distinct segments", "statement": "Two different symbol sequences of the same length over the same starting CDFs never produce the same bits, and neither does a proper prefix of a message determine different leading symbols: decoding only the first k symbols of a segment gives the first k symbols encoded.", "quantifier": "all pairs of symbol sequences", "why_tests_cant": "quantifies over pairs of unbounded sequences", "anchors": ["src/bool_coder.rs: encode_symbol", "src/bool_coder.rs: decode_symbol"]}
{"id": "C13", "title": "uvlc round trip", "statement": "decode_uvlc returns the value given to encode_uvlc and consumes exactly the bits written, for every value below 2^32-1 and any following bits; the code has 2*floor(log2(v+1))+1 bits.", "quantifier": "every u32 value except u32::MAX, every tail", "why_tests_cant": "2^32 values times all tails; the repo's test samples random values", "anchors": ["src/bool_coder.rs: encode_uvlc, decode_uvlc", "src/util.rs: msb64"]}
{"id": "C14", "title": "uvlc accepts every u32", "statement": "encode_uvlc can represent every u32 value, including u32::MAX, and decode_uvlc returns it.", "quantifier": "every u32 value", "why_tests_cant": "the only failing value is one in 2^32", "anchors": ["src/bool_coder.rs: encode_uvlc, decode_uvlc"]}
{"id": "C15", "title": "uvlc decoding always returns", "statement": "decode_uvlc terminates on every finite bit queue, by returning a value or by reporting the missing bits.", "quantifier": "every finite bit queue", "why_tests_cant": "non-termination cannot be observed by a finite test", "anchors": ["src/bool_coder.rs: decode_uvlc"]}
{"id": "C16", "title": "leb128 round trip and size", "statement": "decode_leb128 returns the value given to encode_leb128 and consumes exactly the bits written, for every value below 2^56 and any following bits; the code is the shortest possible: ceil(bits/7) bytes, at least 1 and at most 8, and leb_128_bytes grows by that number.", "quantifier": "every value < 2^56, every tail", "why_tests_cant": "2^56 values", "anchors": ["src/bool_coder.rs: encode_leb128, decode_leb128"]}
{"id": "C17", "title": "le(n) round trip", "statement": "decode_le(n) returns the value given to encode_le(n), little endian byte order, for every n <= 8 and every value below 256^n, and any following bits.", "quantifier": "n in 0..=8, all values that fit, every tail", "why_tests_cant": "2^64 values", "anchors": ["src/bool_coder.rs: encode_le, decode_le"]}
{"id": "C18", "title": "su(n) round trip", "statement": "decode_su(n) returns the value given to encode_su(n) for every n in 1..=62 and every value in [-2^(n-1), 2^(n-1)), using exactly n bits; values outside that range are not representable.", "quantifier": "all n, all values, every tail", "why_tests_cant": "values and widths are too many", "anchors": ["src/bool_coder.rs: encode_su, decode_su"]}
{"id": "C19", "title": "ns(n) round trip", "statement": "decode_ns(n) returns the value given to encode_ns(n) for every n >= 1 below 2^63 and every value below n, with floor(log2 n) or floor(log2 n)+1 bits; no code word is the prefix of another.", "quantifier": "all n, all values < n, every tail", "why_tests_cant": "pairs (n, value) up to 2^126", "anchors": ["src/bool_coder.rs: encode_ns, decode_ns", "src/util.rs: FloorLog2"]}
{"id": "C20", "title": "Headers of mixed fields parse back", "statement": "Any sequence of fields written with push_bits_with_size, encode_uvlc, encode_le, encode_leb128, encode_su and encode_ns is read back field by field by the corresponding readers, consuming exactly the bits written.", "quantifier": "every finite list of well-formed fields, every tail", "why_tests_cant": "unbounded lists", "anchors": ["src/bool_coder.rs: encode_* / decode_*", "src/obu_encoder.rs: header writers"]}
{"id": "C21", "title": "Variable length codes are canonical", "statement": "For uvlc (fewer than 32 leading zeros), le, su and ns: re-encoding the value obtained by decoding gives back exactly the bits that were consumed; for leb128 it gives back the consumed bits exactly when the input was minimal.", "quantifier": "every bit string", "why_tests_cant": "all bit strings", "anchors": ["src/bool_coder.rs: encode_* / decode_*"]}
{"id": "C22", "title": "msb is floor(log2)", "statement": "msb16, msb32 and msb64 never index their lookup table out of bounds and return floor(log2 n) for n > 0 and 0 for n = 0.", "quantifier": "every u16, u32, u64 value", "why_tests_cant": "2^64 values", "anchors": ["src/util.rs: msb16, msb32, msb64"]}
{"id": "C23", "title": "Rounding helpers", "statement": "FloorLog2 is the exact integer logarithm, Clip3 returns the nearest value of the interval, Round2 rounds to nearest with ties up, and Round2Signed is odd: Round2Signed(-x,n) = -Round2Signed(x,n).", "quantifier": "every argument in range", "why_tests_cant": "unbounded arguments", "anchors": ["src/util.rs: FloorLog2, Clip3, Round2, Round2Signed", "src/common.rs", "src/tile_encoder.rs: lower_mv_precision"]}
{"id": "C24", "title": "Bit writer preserves the bit stream", "statement": "After any sequence of write_bit, write_bits and byte_align calls on a fresh BinaryWriter the bytes handed to the sink are the bits in order, most significant first, zero padded only at byte_align, and at most 7 bits are held back.", "quantifier": "every sequence of calls", "why_tests_cant": "arbitrary interleavings of calls", "anchors": ["src/binary_writer.rs: BinaryWriter::{write_bit,write_bits,byte_align}"]}
{"id": "C25", "title": "OBU header is well formed and identifies the type", "statement": "For every OBU type the header written is one byte with forbidden bit 0, the 4-bit type, no extension, and different types give different bytes; a reader recovers type, extension flag and size flag.", "quantifier": "every OBU variant and payload", "why_tests_cant": "all payloads", "anchors": ["src/obu_encoder.rs: encode_obu_header", "src/obu.rs: OBU"]}
{"id": "C26", "title": "OBU stream can be split by a reader", "statement": "For every OBU passed to encode_temporal_unit the emitted bytes are a temporal_unit of the AV1 length-delimited format: a reader that follows temporal_unit_size, frame_unit_size and obu_length reaches exactly the end of the output and recovers the header and payload.", "quantifier": "every OBU that can be encoded", "why_tests_cant": "all payloads; the repo has no reader to compare with", "anchors": ["src/obu_encoder.rs: encode_temporal_unit, encode_frame_unit, encode_obu"]}
{"id": "C27", "title": "Sequence header carries the frame size", "statement": "For every frame size accepted by the option validator, an AV1 parser reading the emitted sequence header obtains max_frame_width_minus_1 = w-1 and max_frame_height_minus_1 = h-1.", "quantifier": "every w, h in 1..=8191", "why_tests_cant": "67 million sizes; the repo tests none", "anchors": ["src/obu_encoder.rs:80-317 (encode_obu_payload, sequence header arm)", "src/sequence_header.rs: SequenceHeader::new", "src/option.rs: size validator"]}
{"id": "C28", "title": "Sequence header encoding never panics", "statement": "Encoding the sequence header succeeds for every frame size accepted by the option validator.", "quantifier": "every w, h in 1..=8191", "why_tests_cant": "a panic at boundary sizes only", "anchors": ["src/obu_encoder.rs:80-317 (encode_obu_payload, sequence header arm)", "src/option.rs: size validator"]}
{"id": "C29", "title": "Metadata OBUs are distinguishable", "statement": "The metadata type written in front of a metadata payload determines which kind of metadata follows.", "quantifier": "every metadata payload", "why_tests_cant": "all payloads of all kinds", "anchors": ["src/obu_encoder.rs: metadata writers", "src/obu.rs"]}
{"id": "C30", "title": "Configuration accepted means configuration usable", "statement": "If parse and validate_config accept an argument list then input, output, frames, width, height and framerate are all set, 0 < width, height < 8192 and the framerate is positive.", "quantifier": "every list of argument strings", "why_tests_cant": "all argument lists", "anchors": ["src/option.rs: CommandOption::{init_config,parse,validate_config}"]}
{"id": "C31", "title": "Every argument is honoured", "statement": "parse either reports an error or applies every option on the command line, later occurrences overriding earlier ones; no argument is silently ignored.", "quantifier": "every list of argument strings", "why_tests_cant": "all argument lists and orders", "anchors": ["src/option.rs: parse, OPTIONS framerate parser"]}
{"id": "C32", "title": "Argument parsing never panics", "statement": "parse returns Ok or Err for every list of argument strings.", "quantifier": "every list of argument strings", "why_tests_cant": "all strings", "anchors": ["src/option.rs: parse, Ratio::new"]}
{"id": "C33", "title": "Frame reader returns the file's pixels", "statement": "Reading planes with read_to_vec delivers the consecutive bytes of the input, whatever sizes the operating system returns from each read; end of file or a short file is reported rather than turned into pixels.", "quantifier": "every input byte string and every schedule of short reads", "why_tests_cant": "read schedules are chosen by the OS", "anchors": ["src/binary_reader.rs: read_to_vec", "src/main.rs"]}
{"id": "C34", "title": "Output depends on the video", "statement": "Two runs with the same options and different video data produce different streams (the encoder encodes the frames it reads).", "quantifier": "every pair of inputs", "why_tests_cant": "pairs of arbitrary videos", "anchors": ["src/main.rs: main"]}
{"id": "C35", "title": "All default CDFs are valid", "statement": "Every row of every table of default_cdf is a valid CDF of the alphabet its syntax element uses, so that every tile starts from a state in which the coder is safe.", "quantifier": "all table rows, by table and index", "why_tests_cant": "the tables are not reachable from unit tests one by one and a single transposed digit matters only for rare contexts", "anchors": ["src/cdf.rs: default_cdf"]}
{"id": "C36", "title": "Relative order hints", "statement": "get_relative_dist(a,b) is the signed distance between two order hints modulo 2^OrderHintBits: it is congruent to a-b, lies in [-2^(bits-1), 2^(bits-1)), and is 0 when order hints are disabled.", "quantifier": "every pair of hints and every OrderHintBits in 1..=8", "why_tests_cant": "wrap-around pairs", "anchors": ["src/common.rs: get_relative_dist"]}
{"id": "C37", "title": "Tiles are coded once each", "statement": "When a tile group is encoded, every tile of the frame is visited exactly once at its own (row, column) position.", "quantifier": "every tile grid", "why_tests_cant": "needs non-square or multi-row grids", "anchors": ["src/obu_encoder.rs: encode_tile_group"]}
{"id": "C38", "title": "Motion vector candidate list", "statement": "Adding any sequence of candidate motion vectors to the stack keeps at most MAX_REF_MV_STACK_SIZE entries, all distinct, the weight of each entry is the sum of the weights of its occurrences (for entries that were not rejected because the stack was full), and no index is out of range.", "quantifier": "every sequence of candidates", "why_tests_cant": "unbounded candidate sequences", "anchors": ["src/tile_encoder.rs: add_ref_mv_candidate, search_stack, compound_search_stack"]}
{"id": "C39", "title": "Motion vector precision reduction", "statement": "lower_mv_precision leaves every component a multiple of the allowed precision, never changes it by more than the step, and moves it towards zero.", "quantifier": "every i32 component, both flags", "why_tests_cant": "all components", "anchors": ["src/tile_encoder.rs: lower_mv_precision"]}
{"id": "C40", "title": "Segment id prediction coding is reversible", "statement": "neg_interleave never panics and, for every reference value and maximum, distinct segment ids get distinct codes below the maximum, so a decoder can recover the id.", "quantifier": "every max, reference and segment id", "why_tests_cant": "all triples", "anchors": ["src/tile_encoder.rs: neg_interleave"]}
{"id": "C41", "title": "Delta q / delta lf values are recoverable", "statement": "The bits emitted for a delta value, read as the AV1 specification says, give back the delta.", "quantifier": "every delta value", "why_tests_cant": "all values; small ones happen to work", "anchors": ["src/tile_encoder.rs: encode_delta_q, encode_delta_lf"]}
{"id": "C42", "title": "Global motion parameters are recoverable", "statement": "A global motion parameter written relative to its predicted value is recovered by the AV1 decoding process.", "quantifier": "every parameter value and prediction in range", "why_tests_cant": "all pairs", "anchors": ["src/obu_encoder.rs: encode_signed_subexp_with_ref, encode_unsigned_subexp_with_ref, encode_subexp"]}
{"id": "C43", "title": "Block geometry tables agree", "statement": "For every block size the 4x4 counts equal width/4 and height/4 and for every partition the sub-block table gives the sizes that tile the parent block.", "quantifier": "all block sizes and partitions", "why_tests_cant": "finite but never exercised together by tests", "anchors": ["src/constants.rs: block_width, block_height, num_4x4_blocks_wide, num_4x4_blocks_high, partition_subsize"]}
{"id": "C44", "title": "Partition covers the block", "statement": "For each partition type the sub-blocks encoded by encode_partition are pairwise disjoint and cover the parent block.", "quantifier": "all partition types, sizes and positions", "why_tests_cant": "positions unbounded", "anchors": ["src/tile_encoder.rs: encode_partition"]}
{"id": "C45", "title": "CDF contexts are in range", "statement": "For every combination of neighbouring block data that block encoding can store, the context computed by each syntax writer is a valid index of its CDF table and the symbol lies in that CDF's alphabet.", "quantifier": "all neighbour states", "why_tests_cant": "product of all neighbour states", "anchors": ["src/bool_coder.rs: encode_* syntax writers (380-1338)"]}
{"id": "C46", "title": "Padding a bit buffer", "statement": "push_bits_align appends fewer than 8 zero bits and makes the buffer a whole number of bytes, changing nothing already there; push_bits appends exactly the bits it is given.", "quantifier": "every buffer", "why_tests_cant": "The padding depends on the buffer length modulo 8 for buffers of every length.", "anchors": ["src/bool_coder.rs:55-62"]}
{"id": "C48", "title": "Sequence header fields parse back", "statement": "For every encoder configuration and sequence header whose fields fit their syntax widths, that is neither monochrome nor a reduced still picture header, a parser of the emitted header (with operating_points_cnt_minus_1 read as the code writes it) recovers operating points, timing and decoder model data, tool flags, colour configuration and film grain flag, and stops exactly at the end; only the leading bit of the frame size is lost.", "quantifier": "every configuration and header in the stated domain", "why_tests_cant": "about forty interacting fields, several optional and of variable width", "anchors": ["src/obu_encoder.rs:80-317", "src/sequence_header.rs"]}
{"id": "C49", "title": "A repeated sequence header is identical", "statement": "Encoding the sequence header a second time with the state left by the first produces the same bits, as AV1 requires of sequence headers within one coded video sequence; at least the parsed fields are the same.", "quantifier": "every configuration and header", "why_tests_cant": "depends on state mutated by the first call", "anchors": ["src/obu_encoder.rs:80-317"]}
{"id": "C50", "title": "Encoding stops at the end of the video", "statement": "main processes as many frames as the input holds, at most the number given with --frames.", "quantifier": "every input and every accepted command line", "why_tests_cant": "the end of input can fall anywhere and reads can be short in any pattern", "anchors": ["src/main.rs:103-118", "src/binary_reader.rs:27-39"]}
{"id": "C51", "title": "Frames have the configured size", "statement": "The planes main reads for each frame have the width and height given with --size.", "quantifier": "every accepted command line", "why_tests_cant": "67 million sizes", "anchors": ["src/main.rs:103-107", "src/frame.rs:239-256"]}
{"id": "C47", "title": "Adaptation follows the standard's rule", "statement": "After coding a symbol the CDF passed to encode_symbol (and likewise the one passed to decode_symbol) holds what the AV1 adaptation process 8.2.6 makes of it, so that a decoder that adapts by the standard stays in step.", "quantifier": "every valid CDF, every symbol, every coder state", "why_tests_cant": "encoder and decoder of the project share the rule, so round trip tests pass whatever the rule is", "anchors": ["src/bool_coder.rs:100-113", "src/bool_coder.rs:194-206"]}
{"id": "C52", "title": "Code words are those of the standard", "statement": "The bits written by encode_uvlc, encode_leb128, encode_le, encode_su, encode_ns and push_bits_with_size are read by the parsing processes of AV1 section 4.10 as the value that was encoded, whatever follows.", "quantifier": "every value in the domain of each code, every following bit string", "why_tests_cant": "the project's own decoders could share a mistake with its encoders; the values range over up to 2^63", "anchors": ["src/bool_coder.rs:51-62", "src/bool_coder.rs:232-361"]}
{"id": "C53", "title": "A standard decoder reads the arithmetic coded symbols", "statement": "The segment written between init_encoder and exit_encoder is decoded by the symbol decoder of AV1 section 8.2 (given its size in bytes) to the symbols that were encoded.", "quantifier": "every sequence of symbols", "why_tests_cant": "the only decoder in the project is the encoder's mirror image", "anchors": ["src/bool_coder.rs:134-217", "src/bool_coder.rs:363-380"]}
{"id": "C54", "title": "Encoding a superblock terminates normally", "statement": "Encoding a superblock that begins inside the frame returns, whatever the block contents: encode_superblock neither panics nor recurses for ever.", "quantifier": "every frame size, superblock size and position, coder and CDF state, and every behaviour of the mode information writer", "why_tests_cant": "the search visits thousands of candidate trees; the project has no test that reaches it", "anchors": ["src/tile_encoder.rs:324-507", "src/bool_coder.rs:424-491", "src/constants.rs: partition_subsize"]}
{"id": "C55", "title": "Chroma is coded with the right luma block", "statement": "With subsampled chroma a luma block is given chroma exactly when it contains the last luma cell of the chroma block, and the availability of the chroma neighbours is that of the cells above and left of the chroma block.", "quantifier": "every block size, position, subsampling mode and tile", "why_tests_cant": "all combinations of sub-8x8 sizes, parities and tile edges", "anchors": ["src/tile_encoder.rs:108-110", "src/tile_encoder.rs:509-545"]}
{"id": "C56", "title": "The tile layout in the frame header is the one used", "statement": "For every frame size and tile grid that AV1 allows, the frame header is written, a decoder reads the same grid from it and continues with the next field, and the tiles split the frame into consecutive non-empty rectangles.", "quantifier": "every frame size, superblock size and number of tile rows and columns", "why_tests_cant": "the interesting sizes are beyond 4096 pixels and the project has no tile tests", "anchors": ["src/obu_encoder.rs:749-816", "src/frame.rs:377-391"]}
{"id": "C57", "title": "Mode contexts are those of the AV1 specification", "statement": "For every pair of neighbouring blocks, the CDF chosen for skip, inter/intra, segment id, reference frame, compound, transform depth and split, interpolation filter, palette, chroma mode and all-zero flags is the one section 8.3.2 of the AV1 specification prescribes for a block at that position in its tile.", "quantifier": "every frame state, block position and tile", "why_tests_cant": "a decoder must derive the same context from its own neighbours; the combinations of neighbour modes and references run to millions and a wrong one desynchronises silently", "anchors": ["src/bool_coder.rs:387-1327", "src/frame.rs:351-363"]}
{"id": "C58", "title": "Coefficient contexts and transform types conform", "statement": "For every transform size and type, position and coefficient values, the context of a coefficient and of its range increment, and the transform type of a block, are those of the AV1 specification.", "quantifier": "every transform size, type, position and coefficient array", "why_tests_cant": "19 sizes x 16 types x 1024 positions x all coefficient values", "anchors": ["src/bool_coder.rs:900-1130"]}
{"id": "C59", "title": "Motion vector prediction follows AV1", "statement": "find_mv_stack leaves in the tile encoder the candidate list, weights, match counts and zero-motion context that section 7.10.2 of the AV1 specification prescribes for the block, and returns for every block of a frame.", "quantifier": "every block position, size, pair of references, neighbourhood and motion field", "why_tests_cant": "the list depends on an unbounded set of neighbourhoods and motion fields; a test fixes one", "anchors": ["src/tile_encoder.rs: find_mv_stack, scan_row, scan_col, scan_point, add_ref_mv_candidate"]}
{"id": "C60", "title": "Global motion vectors follow AV1", "statement": "The global motion vector of a block for each reference is the one AV1 derives from the parameters of the global motion, with one consistent meaning of x and y.", "quantifier": "every block position, size, reference and set of parameters", "why_tests_cant": "six 32-bit parameters and the position", "anchors": ["src/tile_encoder.rs: setup_global_mv", "src/util.rs: Round2Signed"]}
{"id": "C61", "title": "Reference frames are decodable", "statement": "The symbols written for the reference frames of an inter block are read by the AV1 syntax (5.11.25) as the same references, for every legal choice of one or two references.", "quantifier": "every block size, neighbourhood and legal pair of references", "why_tests_cant": "7 single references and 16 pairs times all neighbourhoods; the encoder has no decoder to test against", "anchors": ["src/tile_encoder.rs:738-816"]}
{"id": "C62", "title": "Prediction mode and candidate index are decodable", "statement": "The symbols written for the prediction mode of an inter block and the index into the candidate list are read by the AV1 syntax (5.11.23) as the same mode and index, given the contexts of the specification.", "quantifier": "every mode, number of candidates, index flags and contexts", "why_tests_cant": "depends on state left by previously coded blocks and on contexts of the neighbourhood", "anchors": ["src/tile_encoder.rs:817-873"]}
{"id": "C63", "title": "Motion vectors are decodable", "statement": "The motion vectors stored for a block are those that AV1 derives from the mode, the candidate list and the symbols written (5.11.26), for one and two references and for intra block copy.", "quantifier": "every mode, candidate list, prediction and motion vector", "why_tests_cant": "unbounded vectors and candidate lists", "anchors": ["src/tile_encoder.rs:1330-1440"]}
{"id": "C64", "title": "The mode info of a block is decodable", "statement": "What encode_mode_info writes for a block is read by the AV1 syntax of intra frames (5.11.7) or inter frames (5.11.18) as the mode info of the block.", "quantifier": "every frame header, neighbourhood and block", "why_tests_cant": "the syntax depends on all header flags and the neighbours; there is no decoder to test against", "anchors": ["src/tile_encoder.rs:594-880"]}
{"id": "C65", "title": "cdef indices are stored for the units of the block", "statement": "Coding the cdef index of a block stores it for the 64x64 units of the block and leaves the indices of other units unchanged (5.11.56).", "quantifier": "every block position and size and table of indices", "why_tests_cant": "all positions and previous contents of the table", "anchors": ["src/tile_encoder.rs:632-658"]}
{"id": "C66", "title": "Segment ids are decodable", "statement": "The symbol written for the segment id of a block is read by AV1 (5.11.9) as this id for every prediction, and blocks of any segment can be coded.", "quantifier": "every segment id, neighbourhood, number of segments and set of features", "why_tests_cant": "depends on three neighbouring ids, the last active segment and 8 x 8 features", "anchors": ["src/tile_encoder.rs:543-630", "src/tile_encoder.rs:717-760"]}
{"id": "C67", "title": "Frame headers can be written for every kind of frame", "statement": "For each frame type, shown or hidden, and for frames that are shown again, encoding the OBU of a frame header returns and appends a header.", "quantifier": "every encoder context and frame with consistent sizes", "why_tests_cant": "all combinations of frame types and flags in two records of about 100 fields", "anchors": ["src/obu_encoder.rs:318-401", "src/obu_encoder.rs:708-732", "src/encoder.rs:34"]}
{"id": "C68", "title": "Quantization parameters are decodable", "statement": "The bits written for the quantization parameters are read by an AV1 decoder (5.9.12) as the parameters the encoder keeps using.", "quantifier": "every base index, delta, matrix level and number of planes", "why_tests_cant": "all values of five isize deltas and of the flags", "anchors": ["src/obu_encoder.rs:817-857"]}
{"id": "C69", "title": "Segmentation parameters are decodable", "statement": "The bits written for segmentation are read (5.9.14) as the features asked for, and SegIdPreSkip and LastActiveSegId are those of the standard.", "quantifier": "every table of features and every combination of flags", "why_tests_cant": "8 x 8 optional values of any size", "anchors": ["src/obu_encoder.rs:859-912", "src/constants.rs:1018-1028"]}
{"id": "C70", "title": "Delta q and delta lf parameters are decodable", "statement": "The bits written for delta_q_params and delta_lf_params are read (5.9.17, 5.9.18) as the parameters.", "quantifier": "every base index and every parameters", "why_tests_cant": "all values of the fields", "anchors": ["src/obu_encoder.rs:914-940"]}
{"id": "C71", "title": "Lossless segments are found", "statement": "The lossless flag of every segment is that of the standard (LosslessArray, 5.9.2), and the quantizer matrix levels follow it.", "quantifier": "every quantizer, table of features and previous state", "why_tests_cant": "depends on state left over from other frames", "anchors": ["src/obu_encoder.rs:942-990"]}
{"id": "C72", "title": "Loop filter parameters are decodable", "statement": "The bits written for the loop filter are read (5.9.11) as the levels, the sharpness and the deltas asked for.", "quantifier": "every levels, flags and deltas", "why_tests_cant": "all combinations of ten flags with their values", "anchors": ["src/obu_encoder.rs:992-1036"]}
{"id": "C73", "title": "CDEF parameters are decodable", "statement": "The bits written for CDEF are read (5.9.19) as the strengths asked for, also when the frame is written again.", "quantifier": "every damping, number and strengths", "why_tests_cant": "all vectors of strengths; the second header depends on the first", "anchors": ["src/obu_encoder.rs:1038-1064"]}
{"id": "C74", "title": "Loop restoration parameters are decodable", "statement": "The bits written for loop restoration are read (5.9.20) as the types and sizes asked for, and are present exactly when a decoder expects them.", "quantifier": "every type, shifts and sequence flags", "why_tests_cant": "all values and combinations with the sequence header", "anchors": ["src/obu_encoder.rs:1066-1106"]}
{"id": "C75", "title": "Skip mode uses the frames of the standard", "statement": "skip_mode_allowed and the two skip mode frames are those of 5.9.22 for all order hints.", "quantifier": "every order hints of the references and of the frame, every number of bits of a hint", "why_tests_cant": "modular distances of seven references with ties", "anchors": ["src/obu_encoder.rs:1127-1187"]}
{"id": "C76", "title": "Film grain parameters are decodable", "statement": "The bits written for film grain are read (5.9.30) as the parameters asked for; nothing is written where a decoder reads nothing.", "quantifier": "every film grain parameters, shown and hidden frames", "why_tests_cant": "up to 15 points and 25 coefficients in three planes", "anchors": ["src/obu_encoder.rs:1305-1389", "src/frame.rs:81-143"]}
{"id": "C77", "title": "Frame sizes are decodable", "statement": "The bits written for frame size, superres and render size are read (5.9.5 to 5.9.8) as the sizes asked for, with and without an override.", "quantifier": "every size of frame, sequence and render area and every denominator", "why_tests_cant": "all sizes up to 65536 and all field lengths of the sequence header", "anchors": ["src/obu_encoder.rs:485-560", "src/obu_encoder.rs:592-626"]}
{"id": "C78", "title": "Identifiers, frames shown again and the header after them", "statement": "Frame identifiers are read back and references too far back are given up (7.20); the header of a frame shown again is read back (5.9.2); headers after it are written.", "quantifier": "every identifiers, lengths, decoder models, map indices and sequence of two headers", "why_tests_cant": "all identifiers modulo 2^n; depends on two successive calls", "anchors": ["src/obu_encoder.rs:318-365", "src/obu_encoder.rs:419-438", "src/obu_encoder.rs:1395-1404"]}
{"id": "C79", "title": "Global motion parameters are those asked for", "statement": "The bits written for global motion are read (5.9.24) as the models the caller asked for, and the context keeps them for all seven references.", "quantifier": "every types and parameters", "why_tests_cant": "42 parameters relative to 42 previous ones", "anchors": ["src/obu_encoder.rs:1202-1303"]}
{"id": "C80", "title": "The frame header as a whole is decodable", "statement": "The bits of the header of a frame, from show_existing_frame to the film grain parameters, are read by a decoder (5.9.2, with the sequence header that describes the context) as the header asked for, and no bit more or less is used.", "quantifier": "every context and every lossless, unscaled frame (hidden key or intra-only): identifiers, screen content tools, order hints, buffer removal times, tiles, quantizer matrices, film grain", "why_tests_cant": "the product of all optional groups, each with all its values; tests compare with bits written by hand for a few headers", "anchors": ["src/obu_encoder.rs:318-1404"]}
{"id": "C81", "title": "Which frame headers stay in sync with a decoder", "statement": "If each group of parameters of a frame can be read by itself, the whole header can be read up to its last group, the film grain parameters.", "quantifier": "every context, quantizer, loop filter, cdef and restoration parameters; every sequence header with or without cdef and loop restoration", "why_tests_cant": "the fields present depend on several conditions evaluated on different values by encoder and decoder", "anchors": ["src/obu_encoder.rs:932-1053", "src/obu_encoder.rs:1304-1394"]}
{"id": "C82", "title": "Every restoration unit is coded exactly once", "statement": "encode_lr, called for the superblocks of a frame, codes every loop restoration unit of every filtered plane in exactly one superblock, the one in which the AV1 standard expects it, and in its order.", "quantifier": "every frame size up to 2^50, unit size, subsampling, superres denominator and superblock size; planes with and without filter", "why_tests_cant": "the partition of units among superblocks depends on five sizes with roundings; tests try a handful of sizes", "anchors": ["src/tile_encoder.rs:179-211"]}
{"id": "C83", "title": "Restoration units can be decoded", "statement": "What encode_lr writes for a unit (its type, set of filters, Wiener coefficients or weights) can be read by an AV1 decoder.", "quantifier": "every unit, plane type, reference weight and weight in range", "why_tests_cant": "16384 combinations of weight and reference and all interleavings with the arithmetic coder; encoding alone shows nothing", "anchors": ["src/tile_encoder.rs:212-322", "src/bool_coder.rs:47-49", "src/bool_coder.rs:219-224"]}
{"id": "C84", "title": "Reference weights stay equal in encoder and decoder", "statement": "After each unit coded with the self-guided filter the reference weights kept for the next unit of the plane are those a decoder keeps.", "quantifier": "every set of filters, weights in range and references", "why_tests_cant": "the references depend on the whole history of units of a plane", "anchors": ["src/tile_encoder.rs:296-317", "src/constants.rs:441-443"]}
{"id": "C85", "title": "A new frame can be handed to the tile encoder", "statement": "encode_lr on a frame made by Frame::new returns, at whatever superblock it is called.", "quantifier": "every position, block size and restoration type", "why_tests_cant": "the claim is about every position and parameter; no test calls it", "anchors": ["src/tile_encoder.rs:187-188", "src/frame.rs:342"]}
{"id": "C86", "title": "Copies of partition trees and film grain parameters are complete", "statement": "PartitionTree::clone and FilmGrainParams::clone return a value equal to the original in every field, for trees of any depth and width: the tree kept by the partition search is the tree that was coded, and parameters inherited from a reference frame are those of the frame.", "quantifier": "every partition tree and every set of film grain parameters", "why_tests_cant": "the copies are written out field by field and recursively; a forgotten or swapped field only shows for values a test happens to set, in a tree of the right shape", "anchors": ["src/block.rs:65-94", "src/frame.rs:146-176"]}
{"id": "C87", "title": "After the frame header the encoder holds what the decoder has read", "statement": "After encode_obu_payload has written a frame header the context and the frame hold the values the header stands for: the flags of an intra frame, the identifier of the frame as the previous one, the sizes, and the references marked unusable exactly if their identifier is too far back or their order hint is not the one given; the sequence, the references and the rest of the request are left as they were; and a decoder that reads the header has the same type, visibility, identifier, sizes, tile positions, quantizer and film grain.", "quantifier": "every context and frame whose header is written (hidden key frames and intra-only frames)", "why_tests_cant": "the state is read by later frames and tiles only, and depends on the whole context; a wrong value shows many calls later, if the decoder state is not compared field by field", "anchors": ["src/obu_encoder.rs:318-1404"]}
{"id": "C88", "title": "Every tile starts from the state of the standard", "statement": "Whatever earlier tiles left in the context, encode_tile first sets the quantizer index to the frame's, the loop filter deltas to 0 and, for every plane coded, the reference weights to -32, 31 and the reference taps to 3, -7, 15, and changes nothing else; the superblocks are then coded from this state.", "quantifier": "every tile, number of planes, quantizer index and state left by earlier tiles", "why_tests_cant": "a value left over shows only in a later tile, in the first unit or block that is predicted from it, and for one plane or pass only", "anchors": ["src/tile_encoder.rs:112-177"]}
{"id": "C89", "title": "A tile is written with an initialised arithmetic coder", "statement": "The arithmetic coder a tile is written with has been initialised, so the first symbol of a tile and every later one is coded and encode_tile returns.", "quantifier": "every tile, every symbol and CDF, every sequence of coding calls", "why_tests_cant": "the tests of the coder initialise it themselves; that the encoder never does shows as a call that does not return, which no test can tell from a slow one", "anchors": ["src/main.rs:97", "src/bool_coder.rs", "src/tile_encoder.rs:112-177"]}
{"id": "C90", "title": "Order hints can be switched on", "statement": "A program that sets enable_order_hint in the context and writes a sequence header gets a header that announces order hints with a number of bits, and frame headers that carry them.", "quantifier": "every program of encode_temporal_unit calls and changes of the public context, started from OBUEncoder::new; every sequence header", "why_tests_cant": "order_hint_bits is private and only ever set to 0, on two paths through the sequence header; no finite set of call sequences shows that no sequence of calls gets past it", "anchors": ["src/obu_encoder.rs:34", "src/obu_encoder.rs:49", "src/obu_encoder.rs:145-183"]}
{"id": "C91", "title": "A decoder that has read the sequence header can read the frame header after it", "statement": "If encode_temporal_unit writes a sequence header and then a frame header, a decoder that keeps what it read from the first (identifiers, order hints, screen content tools, integer vectors, sizes, superresolution, restoration, colour, film grain) reads from the second the type, flags, identifier, sizes, tiles, quantizer and film grain of the frame.", "quantifier": "every context, sequence header and lossless unscaled hidden key or intra-only frame", "why_tests_cant": "both headers can be tested alone with settings that agree; which fields of one depend on which of the other is a relation between two states, and sizes agree for some widths only", "anchors": ["src/obu_encoder.rs:91-313", "src/obu_encoder.rs:318-1404"]}
{"id": "C92", "title": "A sequence header repeated later in the stream says the same", "statement": "A sequence header written again, as needed at every key frame, is read by a decoder as the same sequence header whatever OBUs were written in between; a decoder need not start a new coded video sequence.", "quantifier": "every sequence header, state and list of other OBUs between the two", "why_tests_cant": "depends on what every OBU type leaves in the context; a test compares two headers after the one list of OBUs it writes", "anchors": ["src/obu_encoder.rs:91-313", "src/obu_encoder.rs:1381-1396"]}
{"id": "C93", "title": "Frame headers are written exactly when a decoder expects them", "statement": "In a stream of temporal delimiters, frame headers and tile groups, a frame header OBU carries a header exactly when a decoder that follows the stream expects a new one, and a copy of the last one otherwise; also after a frame that is shown again.", "quantifier": "every sequence of OBUs", "why_tests_cant": "the flag is set and reset in four places by three OBU types; the two sides get out of step only after particular orders of calls", "anchors": ["src/obu_encoder.rs:315-324", "src/obu_encoder.rs:1397-1404", "src/obu_encoder.rs:1448-1451"]}
{"id": "C94", "title": "Every OBU of a program is in the stream in order, with its payload", "statement": "The bytes written by a program of encode_temporal_unit calls are, call by call, the payload of the OBU in whole bytes and its framing, and a frame passed as OBU_FRAME has its header and tiles in the stream.", "quantifier": "every program of calls and changes of the context, every frame", "why_tests_cant": "needs the composition of all arms on a shared state over arbitrarily many calls; that the frame is ignored in every state is a statement about pairs of programs", "anchors": ["src/obu_encoder.rs:1575-1603", "src/obu_encoder.rs:1564-1566"]}
{"id": "C95", "title": "The quantizer matrices are consistent", "statement": "Read as the standard reads them, the quantizer matrices of all levels, planes and transform sizes are consistent: the matrix of a transposed size is the transposed matrix, the square ones are sampled from the 32x32 matrix and the others from the 16x32 matrix, sizes share a matrix exactly if they cover the same coefficients, no weight is 0 or longer than 8 bits, and level 15 is flat.", "quantifier": "all 16 levels, 2 planes, 19 sizes and all coefficients", "why_tests_cant": "the 107008 numbers were typed in by hand and nothing reads them yet; a wrong one changes one coefficient of one size at one level", "anchors": ["src/quantizer.rs:6-6777"]}
{"id": "C96", "title": "Quantizer steps grow with the quantizer index", "statement": "At every bit depth the step sizes start at 4 and grow with the quantizer index, strictly except for the DC steps at 8 bits; the DC step is never above the AC step; and each bit depth has four times the steps of the one before up to a constant.", "quantifier": "all 256 indices, 3 bit depths and both kinds of coefficients", "why_tests_cant": "1536 numbers; a rate control that searches the index relies on the order of all pairs", "anchors": ["src/quantizer.rs:6779-6946"]}
{"id": "C97", "title": "Interpolation filters have unit gain and are mirrored", "statement": "Every interpolation, warp and upscaling filter has 8 taps, leaves a flat area exactly as it is after rounding, gives on mirrored samples what the filter for the mirrored position gives, and its result stays within a known multiple of the largest sample.", "quantifier": "all filters of the three tables, all positions, all samples", "why_tests_cant": "353 rows of 8 numbers that nothing reads yet; a wrong tap shifts one sub-pixel position only", "anchors": ["src/constants.rs:629-830", "src/constants.rs:967-1000"]}
{"id": "C98", "title": "Masks, reciprocals and cosines are those their formulas demand", "statement": "The reciprocals of the warp model are rounded to nearest; wedge, overlap and inter-intra masks grow between 0 and 64 and wedge masks add up to 64 with their mirror; distance weights add up to 16; the strengths of the self guided filter are those of the standard; the cosines of the transform are the real cosines rounded to nearest, and satisfy the addition theorem for all angles up to rounding.", "quantifier": "all entries; for the cosines all pairs of angles", "why_tests_cant": "tables typed in by hand that nothing reads yet; their defining equations relate pairs of entries", "anchors": ["src/constants.rs:831-930"]}
{"id": "C99", "title": "Partition symbols are coded with the distribution of their block size", "statement": "How a block is divided is coded with the CDF the standard assigns to the block's width and to whether its neighbours are smaller, so that a conforming decoder reads back every sequence of choices.", "quantifier": "all sequences of choices, block sizes, contexts, tables and coder states", "why_tests_cant": "encoder and decoder of the project could share the wrong table; which table is right shows only against the standard, and adaptation makes each choice depend on all earlier ones", "anchors": ["src/bool_coder.rs:424-439", "src/tile_encoder.rs:355-362"]}
{"id": "C100", "title": "Forced divisions use the standard's two-way distribution", "statement": "Where the frame edge cuts a block, split_or_horz and split_or_vert code the flag with the probability that the standard derives from the partition CDF, and always succeed.", "quantifier": "all block sizes, contexts, tables reached and flags", "why_tests_cant": "the probability derives from a CDF that adapts; whether the writer can ever succeed depends on all tables reachable", "anchors": ["src/bool_coder.rs:441-491", "src/tile_encoder.rs:363-381"]}
{"id": "C101", "title": "Adaptation never makes a symbol impossible", "statement": "Whatever is coded or decoded, no probability of any CDF falls below 32 of 32768, or below its start value if that is less; so a symbol never costs more than 10 bits (15 for rarer start values) however long the session.", "quantifier": "all sessions of any length, all CDFs and all input bits of a decoder", "why_tests_cant": "a lower bound over unboundedly many updates", "anchors": ["src/bool_coder.rs:75-118", "src/bool_coder.rs:142-207"]}
{"id": "C102", "title": "The transform type written is the one read", "statement": "For every transform size and every transform type its set allows, the symbol written by encode_intra_tx_type or encode_inter_tx_type is one that an AV1 decoder reads as that type.", "quantifier": "all 19 transform sizes, both reduced_tx_set values, intra and inter blocks, all types of the set, all CDFs with the right number of symbols", "why_tests_cant": "a test has to pick sizes, types and CDF states; writing and reading with the same wrong numbering would agree", "anchors": ["src/bool_coder.rs:1136-1157", "src/constants.rs:1107-1130"]}
{"id": "C103", "title": "Tables for directional filters, chroma from luma and transforms are consistent", "statement": "The eight filter directions are different lines, a quarter turn apart after four steps; the chroma direction is the luma direction as seen on the subsampled plane, mirrored between 4:2:2 and 4:4:0; row shifts depend only on the size of the transform; the sign pairs of chroma from luma are those the standard reads.", "quantifier": "all directions, subsamplings, transform sizes and sign values", "why_tests_cant": "the tables are private constants no test reads; the claim relates every entry to geometry rather than to a copy of the table", "anchors": ["src/constants.rs:219-234", "src/constants.rs:932-965"]}
{"id": "C104", "title": "The motion of an inter block is decodable as a whole", "statement": "Whenever the references, mode, index and vector of an inter block with one reference are coded (with the contexts of the decoder), a decoder reads the same references, mode, index and vector back, and what follows stays in place. This holds exactly if the vector is the one both sides predict: a new vector that differs from its prediction is never read back, whatever is coded after it. In a frame with a warp as global motion a block with the mode GLOBALMV is read back exactly if both components of its global vector are equal and not negative.", "quantifier": "all inter blocks with one reference in all frames, with or without segmentation, any global motion and precision, all neighbours, all vectors, all lists of candidates of the decoder", "why_tests_cant": "vectors, neighbours and candidate lists are unbounded in combination; a test shows some blocks that decode and cannot show that no continuation repairs the others", "anchors": ["src/tile_encoder.rs:738-875", "src/tile_encoder.rs:1320-1460"]}
{"id": "C105", "title": "A release build codes the same as a debug build", "statement": "Whenever a coding session or a header codec returns in a debug build, the release build of the same source returns the same bits and values (and loops where the debug build loops); in particular everything encoded in a release build is decoded again, including literals wider than 64 bits, which a debug build refuses.", "quantifier": "all sessions on all coders and CDFs, all header codecs on all arguments", "why_tests_cant": "tests run in one profile on chosen inputs; agreement of the profiles depends on no intermediate value leaving its type on any input", "anchors": ["Cargo.toml", "src/bool_coder.rs:47-380", "src/util.rs:33-114"]}
{"id": "C106", "title": "Where a debug build panics, a release build does not silently write something else", "statement": "A header codec called in a release build with an argument that would overflow in a debug build either still round-trips or panics; it never writes a code that is read back as another value. (It is not so: the largest u32 is written by uvlc as zero, the largest value of ns with a 64-bit range as zero, and le with more than eight bytes repeats bytes that the reader adds up; su is right for all widths up to 64.)", "quantifier": "all values of the argument types", "why_tests_cant": "the debug profile in which tests run panics on these inputs, so no test observes what the release build writes", "anchors": ["src/bool_coder.rs:232-361"]}
{"id": "C107", "title": "A release build of the encoder does what a debug build does", "statement": "Whenever any part of the encoder - header and metadata writers, the writers of OBUs, motion vector lists, mode information, restoration units, the search of partitions, tiles, streams, the program itself - returns in a debug build, the release build returns the same bits, state and files; where the debug build loops, so does the release build. The two can differ only where the debug build panics.", "quantifier": "all arguments, states, streams, command lines and input files", "why_tests_cant": "tests run in one profile on chosen inputs; agreement depends on no intermediate value leaving its type on any input", "anchors": ["Cargo.toml", "src/encoder.rs", "src/obu_encoder.rs", "src/tile_encoder.rs", "src/main.rs"]}
{"id": "C108", "title": "The program does the same in both profiles", "statement": "For every command line and readable video the program writes the same output in both builds, or refuses in both. (It is not so exactly when at least one frame is asked for with a width or height of 1 or 2: the debug build panics; the release build ends normally and writes a sequence header from which a parser reads another size.)", "quantifier": "all command lines, all inputs", "why_tests_cant": "the debug profile in which tests run panics on these sizes, so no test observes what the release build writes", "anchors": ["Cargo.toml", "src/main.rs", "src/option.rs", "src/sequence_header.rs", "src/obu_encoder.rs: encode_sequence_header"]}
{"id": "C109", "title": "Turning overflow checks off does not make the unusable parts of the encoder usable", "statement": "Tile groups with a tile in them, tiles that begin inside the frame, and frame headers that a debug build cannot write (C37, C67, C88, C89) cannot be written in a release build either: they panic or loop for reasons other than overflow.", "quantifier": "all frames, tiles, states and block coders; both profiles", "why_tests_cant": "tests see single panics in one profile; that no input at all gets through needs a proof", "anchors": ["Cargo.toml", "src/tile_encoder.rs:112-177", "src/obu_encoder.rs: encode_tile_group", "src/obu_encoder.rs:318-401", "src/obu_encoder.rs:708-732", "src/main.rs:97"]}
{"id": "C110", "title": "A release build codes forced divisions at the frame's edge", "statement": "Where the frame's edge cuts a block, a release build writes the flag so that a decoder with the standard's probabilities reads it. (It is not so: the sum of probabilities is used as a shift amount; blocks of 32 and 64 panic as in a debug build, for the others the low five bits of the amount are taken, and a split of a block of 16 or 128 without neighbours is read as no split.)", "quantifier": "all coders, valid tables, block sizes and neighbours for the outcome; all block sizes from 16 up for the refutation", "why_tests_cant": "a debug build panics here (C100), so only a release build shows what is written, and the value depends on the adapted tables", "anchors": ["Cargo.toml", "src/bool_coder.rs:441-491", "src/tile_encoder.rs:363-381"]}
{"id": "C111", "title": "The quantizer and loop filter deltas of a block reach the decoder", "statement": "The deltas coded with the first block of a superblock are read back by the AV1 syntax in order and with the CDFs of the standard - one for the quantizer, then none, one, two or four for the loop filters - and leave the decoder with the levels of the block. (It is not so for a quantizer delta above 2 or a loop filter delta above 4 units of the resolution, or when the difference is no multiple of the resolution; otherwise it is.)", "quantifier": "all frames, blocks, current values and resolutions", "why_tests_cant": "the condition ranges over five deltas at once and over all current values", "anchors": ["src/tile_encoder.rs:660-715"]}
{"id": "C112", "title": "The motion of an inter block with two references is decodable", "statement": "Whenever the references, mode, index and vectors of an inter block with two references are coded, a decoder reads the same references, mode, index and both vectors back, and what follows stays in place. Found false: the encoder finds the vectors and codes the index by the mode of the last block with one reference, and the second vector is always the global motion of the second reference; the exact condition under which the block is read back is given, and with two candidates or more no mode with a new vector is.", "quantifier": "all inter blocks with two references in frames without segmentation, any global motion and precision, all neighbours, vectors, modes, all earlier modes, any number of candidates, all lists of the decoder of at least two entries (to which a decoder fills them up), everything that may follow", "why_tests_cant": "the outcome depends on an earlier block through a field that is not reset; a test shows some combinations of earlier and present modes and cannot show that no continuation repairs the others", "anchors": ["src/tile_encoder.rs:815-875", "src/tile_encoder.rs:1320-1440"]}
{"id": "C113", "title": "Every block of palette colours can be coded", "statement": "A caller that follows the colour order of the specification can code any block of palette colours with the two writers of palette colours: no call panics, and a decoder that derives the order, the hash and the context of each colour from the colours it has read gets every colour of the block back, ends with the CDFs of the encoder, and finds what follows in place. A hash that no neighbourhood can have is refused.", "quantifier": "all blocks up to 4096 x 4096, all palettes of 2 to 8 colours, luma and chroma, all colours, all valid states of the CDFs and of the coder, everything that may follow", "why_tests_cant": "the number of blocks is n^(w*h), every context depends on the three colours before it and every CDF on the whole history", "anchors": ["src/bool_coder.rs:1092-1120", "src/constants.rs:1346-1350"]}
{"id": "C114", "title": "What is read from elements is read from bits", "statement": "Whatever a decoder reads from a list of syntax elements - each element chosen by the values read before it - it reads from the bits the arithmetic coder makes of them: the same value, the same adapted probabilities as the encoder, and what follows stays in place. Everything written for the motion of an inter block is a symbol of an existing table, so motion that is read back from elements is read back from bits. The deltas of a block are read back from bits exactly when they are small enough to be read back from elements.", "quantifier": "all readers, all lists of up to 2^26 symbols, all valid states of the tables and the coder, everything that may follow; all inter blocks, with and without segmentation, and all deltas within the limits of C111", "why_tests_cant": "readers and histories are unbounded; the probabilities of each symbol depend on all symbols before it", "anchors": ["src/bool_coder.rs:64-128", "src/bool_coder.rs:142-230", "src/tile_encoder.rs:660-716", "src/tile_encoder.rs:738-875"]}
{"id": "C115", "title": "Every motion vector difference can be coded", "statement": "A caller that follows the syntax of the specification can code every difference of motion vectors that the syntax has with the writers of motion vectors: no call panics, and a decoder adds exactly this difference to its prediction, ends with the probabilities of the encoder, and finds what follows in place. The syntax has no other differences: whatever a decoder can read is below 2048 samples, of whole samples if only these are allowed, and even without high precision.", "quantifier": "all differences of up to 2^14 eighths in both directions, all predictions, both contexts, all precisions, all valid states of the tables and the coder, everything that may follow", "why_tests_cant": "there are about 2^30 differences and every symbol is coded with probabilities that depend on the whole history", "anchors": ["src/bool_coder.rs:789-832"]}
{"id": "C116", "title": "The closure for the components of a motion vector cannot be put to use as it is", "statement": "assign_mv defines a closure that codes one component of a motion vector difference, but never calls it. Were it called, it would panic only for the least 64-bit integer, and no component at all could be read back: no sign is written, so a decoder reads something else; even with a sign put before it, the class is 0 or 1 whatever the component, the 1 the syntax leaves out is not subtracted, and a decoder reads another value, at most 32 eighths of a sample.", "quantifier": "all components, both precisions, both contexts, everything written before and after", "why_tests_cant": "the closure cannot be called from outside, and no finite set of components shows that none is right", "anchors": ["src/tile_encoder.rs:1403-1436", "src/util.rs:63-73"]}
{"id": "C117", "title": "The vector of a block comes from its own candidates", "statement": "The vector of an inter block depends on the block, its neighbours, the global motion and the motion field only, not on what the list of candidates held before, and where there are too few candidates it is the global vector a decoder fills up with. Found false: the list is not cleared, so a block for whose mode there is no candidate gets the entry an earlier block left, and a decoder reads that block back exactly if the entry happens to equal what the decoder has there.", "quantifier": "all inter blocks with one reference in frames without segmentation, any global motion and precision, all neighbours and all lists left by earlier blocks", "why_tests_cant": "the vector depends on a list left by any earlier block; a test shows some sequences of blocks, and tests of single blocks start with a list of zeros, where zero is what the global vector usually is", "anchors": ["src/tile_encoder.rs:738-875", "src/tile_encoder.rs:888-1000", "src/tile_encoder.rs:1330-1380"]}
{"id": "C118", "title": "Damaged data do not crash the decoders", "statement": "On any bits, also ones no encoder made, the arithmetic decoder gives each call a value of its alphabet, leaves the tables of probabilities valid and depends on no bit beyond those it uses. It panics exactly when the bits are cut short, that is when they are a proper beginning of bits that it reads. The same holds for a parser that chooses its calls by what it has read, and for the readers of le(n), leb128, su(n), ns(n) and, once there is a one bit, uvlc. The size given to the decoder is meant to keep it within its segment and to leave it at its end.", "quantifier": "all bits of any length, all valid tables, all sequences of calls of up to 2^26 symbols, all parsers, all sizes below 2^28, all widths of fields the readers support", "why_tests_cant": "the bits are arbitrary and unbounded; each symbol depends on all bits before it through the adapted tables", "anchors": ["src/bool_coder.rs:64-136", "src/bool_coder.rs:226-361"]}
{"id": "C119", "title": "What is coded is what is kept, and nothing else changes", "statement": "After the restoration units of a superblock are coded, the frame holds for each of them the type asked for, and for a self-guided unit the set and the weights coded; the entries of all other units are as before. After all superblocks of a frame, every unit of the frame holds what was asked for it. After the mode info of a block, its choices are as before except segment, skip and is_inter, and for an inter block references, mode and vectors; of the state carried to later blocks an intra block changes no motion data, the quantizer and filter levels change only where deltas are due, and the cdef strengths only where the 64x64 area has none. Where a frame applies no film grain, the parameters kept for later frames are all zero; where it uses those of a reference frame, they are kept unchanged but for the seed; where it has its own, they are kept as a decoder has them after reading.", "quantifier": "all superblocks of frames of any size, all units, blocks and states, with and without segmentation; all film grain parameters", "why_tests_cant": "the claim is about every entry of tables that grow with the frame, and about every field of every block", "anchors": ["src/tile_encoder.rs:179-322", "src/tile_encoder.rs:594-880", "src/obu_encoder.rs:1305-1320", "src/frame.rs:114-144"]}
{"id": "C120", "title": "A syntax element adapts its own distribution and no other", "statement": "Coding a syntax element uses one row of the CDF table of that element, adapts that row to the symbol, and leaves every other row of every table unchanged. So after any sequence of elements each row is the one at the start adapted, in order, to exactly the symbols coded with it; how elements of different rows are interleaved makes no difference to the tables.", "quantifier": "all legal calls of the syntax writers, all sequences of any length, all valid CDF states and coder states", "why_tests_cant": "the tables have thousands of rows, and a row changed by mistake shows only when it is next used, as a drift of the decoder", "anchors": ["src/bool_coder.rs:424-1338", "src/bool_coder.rs:142-207", "src/cdf.rs"]}
{"id": "C121", "title": "The order of the options makes no difference", "statement": "Options on the command line that are for different settings give the same configuration in whatever order and in whichever form (long or short name) they are written; an option whose setting is given again later makes no difference.", "quantifier": "all well formed command lines of any length, all orders of their options, all configurations to start from", "why_tests_cant": "there are unboundedly many command lines and orders, and tests try the usual order", "anchors": ["src/option.rs:96-165", "src/option.rs:171-241"]}
{"id": "C122", "title": "What was encoded is in the output file", "statement": "When the program ends, by itself or because reading the video failed, the output file holds every byte that was written to it.", "quantifier": "all accepted command lines, all videos, all patterns of short and failing reads", "why_tests_cant": "a read error can come at any read, and tests of the encoder look at the bytes handed to the writer, not at the file", "anchors": ["src/main.rs:103-118", "src/binary_writer.rs:22-41"]}
{"id": "C123", "title": "A run ends with a message or with an encoding", "statement": "Whatever the arguments, the video and the errors on reading it, the program ends: if the arguments are not accepted, with a message and no output; if they are, by encoding. It never crashes.", "quantifier": "all argument lists, all videos, all patterns of short and failing reads", "why_tests_cant": "all argument strings and all patterns of reads", "anchors": ["src/main.rs:43-119", "src/option.rs:225-241", "src/sequence_header.rs", "src/util.rs"]}
{"id": "C124", "title": "A release build can code the last coefficient of a block", "statement": "The writer of the base level of the last coefficient, which always panics in a debug build (C45), selects in a release build the context of the standard, and writes the level with it.", "quantifier": "all transform sizes, positions, frames and CDF states", "why_tests_cant": "unit tests run in the debug profile, where every call panics; and the release result depends on two wrapping operations", "anchors": ["src/bool_coder.rs:967-977", "src/common.rs:143-160", "src/constants.rs:460-462"]}
{"id": "C125", "title": "A release build codes nothing with a context that has wrapped out of its table", "statement": "In a release build, where the arithmetic on contexts wraps, an element is coded only if its context indices lie inside the table of its element. In particular the angle delta of a mode without direction (DC_PRED included) and the V alpha of chroma from luma when U is zero and V negative end in a panic and not in a wrong symbol.", "quantifier": "all elements, contexts, symbols, coder states and valid CDF states", "why_tests_cant": "unit tests run in the debug profile, where the subtraction itself panics; the release result depends on every index that can wrap", "anchors": ["src/bool_coder.rs:414-422", "src/bool_coder.rs:1308-1312"]}
{"id": "C126", "title": "The help text lists exactly the flags that work", "statement": "A flag can be used on the command line, that is, some command line starting with it is not rejected, exactly if the text printed by --help lists it; and the long and the short flag on one line of that text have the same effect whatever arguments follow.", "quantifier": "all strings as flag, all following arguments and configurations", "why_tests_cant": "that no unlisted string is accepted is a statement about all strings, and equal effect is one about all argument lists", "anchors": ["src/option.rs:85-169", "src/option.rs:172-200", "src/option.rs:217-240"]}
