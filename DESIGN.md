# Design of the formal model of av1enc

## Approach

The code is modelled function by function in Gallina (Coq 8.16.1), files
`rocq/theories/*Model.v`. Every definition cites the Rust file and lines it
models. The conventions are:

* A Rust panic (index out of bounds, arithmetic overflow in a debug build,
  failed `assert!`, subtract with overflow) is an explicit value `Panic` of the
  result type `res`. Nothing is totalised silently: list access is
  `nth_error`-based and checked, subtraction on unsigned types is checked.
* Loops that terminate by construction are structural recursion. `while` loops
  take fuel; running out of fuel is a third, distinct value `Hang`. Theorems say
  that `Hang` does not occur, or that it does.
* Integers are `Z` with the range checks written out where the Rust type would
  overflow (`chk_i32`, `chk_u64`, ...). Debug-build semantics (overflow panics,
  what `cargo build` and `cargo test` give) is the reference. `BuildModel.v` (coder
  and header codecs) and `BuildEncModel.v` (everything else that does arithmetic)
  have the same text with the profile as a parameter: in `Release` arithmetic wraps
  and shift amounts are masked (`Cargo.toml` overrides neither). Both files are
  written by `tools/gen_build.py` and `tools/gen_build_enc.py` from the model files;
  the debug reading is proved equal to the model. What remains to be read by eye is
  that a release build does at each check what the head of `BuildModel.v` says.
  Arithmetic that the model leaves unchecked because a debug build cannot leave the
  type there is left unwrapped too. C105-C110 relate the two profiles.
* A bit vector (`Vec<u8>` of 0/1) is a `list Z`, first pushed bit first.  `bool`
  lists are used only in specifications.

Specifications are in `*Spec.v`, are written without using the model, and are
kept small. Proofs are in `*Proofs.v`. `Properties*.v` restate the final theorems
(one `exact` each), each with an `Example` showing that the hypotheses are met by
a concrete non-trivial case, followed by `Print Assumptions`.

## Trusted base

* Coq's kernel (including its `vm_compute` machine), version 8.16.1.
* What `Print Assumptions` lists for each theorem: "Closed under the global context"
  (no axioms at all) for all of them but one. `C98_cosine_real` speaks of the real
  cosine and lists the axioms of the standard library's real numbers:
  `ClassicalDedekindReals.sig_not_dec`, `ClassicalDedekindReals.sig_forall_dec` and
  `FunctionalExtensionality.functional_extensionality_dep`.
* The correspondence between the Rust text and the `*Model.v` files, which was
  made by hand by reading; the CDF tables and block tables are generated by
  `tools/` scripts from the Rust text and committed as Coq source.
* The specifications in `*Spec.v`.
* `vcheck` may list `Coq.ssr.ssrunder.*` names: these are parameters of a module
  type inside Coq's own standard library (loaded by `lia`), not axioms any theorem
  depends on; `Print Assumptions` lists none of them for any theorem.

## What is modelled and what is not

Modelled: the arithmetic coder, all bit-level codecs, `util.rs`, the bit writer,
the reader (against an abstract `Read` that may return short counts), the option
parser, the OBU framing and header writers, sequence header, metadata, tile
layout, the syntax writers of `bool_coder.rs` that compute contexts, the motion
vector candidate list, the mode info of a block (`encode_mode_info`, `assign_mv`,
`encode_segment_id`), partition geometry, tables.

The frame header (`obu_encoder.rs` 318-1404) is in `FrameModel` and
`FrameParamModel`, function by function; of the two records it works on, the fields it
neither reads nor writes are left out.

Loop restoration units (`encode_lr`, `tile_encoder.rs` 179-322) are in `LrModel`: the
calls made on the coder, and what they put out.

A whole tile (`encode_tile`, `tile_encoder.rs` 112-177) is in `WholeTileModel`: the reset
at its start, the superblocks with their restoration units, and the partition, with the
mode information of a block as a parameter (the theorems hold for every one).

Streams of OBUs are in `StreamModel`: all arms of `encode_obu_payload` on the state they
share (the sequence header code of `SeqModel` and the frame header code of `FrameModel`
each work on a part of it), the tile group with its last lines, `encode_obu` and
`encode_temporal_unit` around them, and callers that change the public context between
two calls. The superblock coder is a parameter of the tile group.

The quantizer tables are in `QuantTables` and the prediction and filter tables in
`FilterTables` (generated); no code reads them yet, so they are read as the standard says
(`QuantSpec`, `FilterSpec`).

The output file is in `FileModel`: the standard library's `BufWriter`, and what
`process::exit` leaves unwritten in it.

Not modelled: terminal output (except the help text) and colours, the rest of the file system, errors on
writing, the buffer of standard output, allocation failure, the text of error messages,
`Rc`/`RefCell` except where a double borrow panics.

## Per property

| id | modelled | proof |
|----|----------|-------|
| C01 | `init_encoder`, `encode_symbol`, `exit_encoder`, `init_decoder`, `decode_symbol` with all coder fields | Abstract both sides to an exact-arithmetic interval coder: encoder low and range as unbounded integers over 2^shifts, pending-bit representation related to the binary expansion of low; decoder invariant `value = range-1-(x-low)` where x is the number formed by the bits read. Induction over the symbol list. Sessions of any length: written plus pending bits never decrease, so a bound on the final size bounds every intermediate counter (LongSessionProofs) |
| C02 | same | follows from the same induction: the update functions are textually separate in model and proved equal on equal symbols |
| C03 | CDF update loop | induction on the loop; monotone argument on adjacent entries; arithmetic by `lia`/`nia` |
| C04 | same, with i32 checks | state invariant 32768 <= range < 65536, 0 <= value < 65536, loop measure 15-log2(range) |
| C05 | `pop_front` on an empty queue is `Panic` | bit counting in the C01 invariant |
| C06 | same | per-symbol inequality new range >= probability, then sum |
| C07 | `bit_count` | counting invariant |
| C08 | two sessions | expected false (`init_encoder` keeps `bit_count`): refutation witness; plus a theorem giving the exact residue |
| C09 | `encode_symbolp`, `encode_symbols`, `encode_literal` and decoders | generalise C01 to a list of operations |
| C10 | `exit_decoder`, `bool_max_bits` | expected false (counter decremented twice per bit): refutation and exact characterisation |
| C11 | output buffer threaded explicitly | all functions factor through "append" |
| C12 | same as C01 | corollary |
| C13-C15 | `encode_uvlc`, `decode_uvlc` with fuel | direct; C14 and C15 expected false |
| C16-C19 | leb128, le, su, ns | direct, on lists of bits |
| C20 | list of fields | induction with per-field lemma in "tail" form |
| C21 | same | per-codec inverse lemma |
| C22 | `msb16/32/64` with LUT access checked | case analysis against `Z.log2` |
| C23 | macros as functions | arithmetic; oddness of Round2Signed expected false |
| C24 | writer state (buf, index, bytes out) | invariant over call lists |
| C25 | `encode_obu_header` | finite case analysis |
| C26 | `encode_temporal_unit` and callees over an arbitrary payload | expected false: refutation, plus a theorem that gives the exact byte string emitted |
| C27-C28 | sequence header arm of `encode_obu_payload` for arbitrary `SequenceHeader`, spec parser per AV1 5.5 | characterise for which sizes it parses back; expected false in general |
| C29 | metadata | expected false for timecode |
| C30-C32 | strings as lists of bytes, option table, slicing at character boundaries, `usize::from_str`, `Ratio::new` | grammar of command lines written independently; every outcome of `parse` characterised by an iff; C31, C32 expected false |
| C33 | abstract reader with arbitrary schedule; `BufReader` with its 8192 byte buffer over a regular file | proved for full reads, refuted for short reads and for every regular file |
| C34 | `main` as a function of options and input | expected false: output is a function of w and h only |
| C35 | every field of default_cdf, generated as nested lists by `tools/gen_cdf.py`; shapes and alphabets written by hand in CdfTableSpec | a boolean checker run by `vm_compute` and lifted to valid_cdf for every index path |
| C36 | `get_relative_dist` with checked isize arithmetic | masks as division with remainder |
| C37 | `encode_tile`, tile group loop (`TileModel`) | position right iff one tile; a tile group is never written (double borrow); coverage of a tile by superblocks by induction on rows and columns |
| C38 | `add_ref_mv_candidate` and its searches (`MvStackModel.v`) | the list represents the first eight distinct candidates with summed weights; induction over the sequence |
| C39 | `lower_mv_precision` | arithmetic against 7.10.2.3 of the standard; "towards zero" and the high precision case expected false |
| C40 | `neg_interleave` with checked and with wrapping arithmetic | `neg_deinterleave` of the standard as the decoder; expected false, exact condition |
| C41 | delta q/lf writers as lists of coder calls | the reader of the standard (`ReaderSpec.reader`) run on the arithmetic decoder, at any place of a segment; expected false, exact condition |
| C42 | subexp writers and `encode_global_param` | readers of 5.9.25 to 5.9.29; the code proved by induction on the rounds, the form with a reference expected false |
| C43-C44 | all block and transform tables (`BlockTables`, generated by tools/gen_tables.py), `sub_blocks` of `encode_partition` | block sizes as pairs of pixels and areas as sets of 4x4 cells (`GeomSpec`); finite tables by computation, positions and frame sizes symbolic; expected false, exact condition |
| C45 | every syntax writer as "choose a CDF and a symbol" (`ContextModel`), legal arguments as an inductive predicate (`ContextCallSpec`) | per writer: range lemma or refutation; sequences by reduction to C09 |
| C46 | `push_bits`, `push_bits_align` | direct |
| C48 | same model as C27, every field | parser of AV1 5.5 written independently (`SeqSpec.rd_seq`); one append/parse lemma per syntax group |
| C49 | same, the encoder state is returned by the model | second run of C48 on the returned state; bits expected different |
| C50 | `main` over an arbitrary schedule of reads | induction on the number of frames; expected false |
| C51 | same, plane lengths of `Frame::new` | expected false, exact condition |
| C47 | same model as C01 | entry by entry closed form of the draft rule (`SyntaxSpec.draft_adapted`); the rule of the published standard (`av1_adapt`) expected false |
| C52 | same model as C13-C19 | readers of AV1 4.10 written independently (`SyntaxSpec`), one lemma per code |
| C53 | same model as C01 | symbol decoder of AV1 8.2 written independently (`SyntaxSpec.sd_symbol`); expected false |
| C54 | `encode_partition`, `encode_block`, the partition writers; mode information is an arbitrary function | the candidate SPLIT is always tried, so the search reaches 8x8 and there HORZ_4: expected false for every state |
| C55 | head of `encode_block`, `is_inside` | chroma as a condition on the cells of the block (`GeomSpec.carries_chroma`) |
| C56 | tile_info of the frame header (`TileModel.encode_tile_info`) | exact bits or panic; reader of 5.9.15 recovers them iff the counts are below the maximum |
| C57 | same model as C45 | contexts of AV1 8.3.2 written over the blocks above and left in the tile (`ContextSpec`); equality, or the exact set of neighbours where it holds; for the all-zero flags the standard's level contexts along the edges are arbitrary functions of the 4x4 unit (`ContextEdgeSpec`) |
| C58 | coefficient contexts, `compute_tx_type` | neighbour offsets per transform class from the specification; equality for all sizes by case analysis on the table and induction on the neighbours |
| C59 | `find_mv_stack` with its scans and temporal samples; blocks, weights and samples of AV1 7.10.2 in `MvStackSpec.v` | composition of the loops with C38; witnesses for sorting and precision; panics for all blocks of the first row |
| C60 | `setup_global_mv` and `Round2Signed` | exact value against 7.10.2.1; witnesses |
| C61 | `ref_frames` with the writers of ContextModel; `av1_ref_frames` (5.11.25) in ModeInfoSpec | case analysis on the references; exact set of readable pairs |
| C62 | `inter_mode`, `mv_index`; `av1_mode_index` (5.11.23) | exact condition on contexts (one reference) and on the mode left over (two) |
| C63 | `assign_mv`; `av1_assign_mv`, `av1_mv` (5.11.26, 5.11.31), `av1_intrabc_pred` | exact condition: new vectors equal to their prediction |
| C64 | `encode_mode_info` for all blocks; `av1_intra_frame` (5.11.7) | the names of all elements written are listed; the parser needs one outside the list |
| C65 | `code_cdef`, its loops; `av1_cdef_sets` (5.11.56) | induction over the loops gives all entries; exact condition |
| C66 | `code_segment_id`, segment features; `av1_segment_id` (5.11.9) | case analysis on the prediction; the missing feature panics |
| C67 | `encode_frame_header` | inversion of a successful run: the index into the 7 order hints |
| C68 | `enc_quant`; `rd_quant` (5.9.12) | exact bits, read back modulo the field sizes; exact condition |
| C69 | `enc_seg`, `seg_derive`; `rd_seg` (5.9.14) | a decoder takes 8 bits more for the same set of features; folds for the derived flags |
| C70 | `enc_delta`; `rd_delta` | length of every value against length written |
| C71 | `enc_lossless`, `get_qindex`; `av1_lossless` | loop invariant over the segments; exact condition |
| C72 | `enc_lf`; `rd_lf` (5.9.11) | exact bits; case analysis on the two mode deltas |
| C73 | `enc_cdef`; `rd_cdef` (5.9.19) | loop over the strengths; the state after the first header |
| C74 | `enc_lr`; `rd_lr` (5.9.20) | exact bits; the inverted flag by length |
| C75 | `skip_mode`, both scans; `av1_skip` (nearest references by signed distance) | scan invariant "nearest so far" over the list of references |
| C76 | `enc_grain`; `rd_grain` (5.9.30) | exact bits with all loops, read back |
| C77 | `enc_sizes`; `rd_sizes` (5.9.5-5.9.8) | exact bits; with an override by counting bits |
| C78 | `mark_refs`, `enc_existing`; `id_usable`, `rd_header` | loop over the references with arithmetic modulo 2^n; second call of the header |
| C79 | `enc_gm`; `rd_gm` (5.9.24) | loop invariant; one reference less than a decoder reads |
| C80 | `encode_frame_header` from beginning to end; `rd_header` (5.9.2) | composition of the groups: each writer appends its code, each reader returns it and the rest |
| C81 | as C80 | sizes of what is read from the loop filter on: in every case that is not lossless on both sides the number of bits differs (refuted; exact condition) |
| C82 | loops of `encode_lr` with any action per unit; ranges of 5.11.57 in `LrSpec` | ranges equal the standard's; on an axis unit u lies in superblock u*den/(sb*num) and in no other; the last superblock reaches the last unit, superres included |
| C83 | `lr_unit` and its closures, each call either a pushed bit or an arithmetic-coded bit | second borrow; two units exchanged give the same calls; exact set of weights read back (finite table of all weights and references); bits of one tile computed with the coder |
| C84 | `sgr_weights`; `av1_weights` (5.11.58) | exact value of the references after a unit; exact condition |
| C85 | `encode_lr` on `Frame::new` | index into the empty row |
| C86 | both `clone` functions over all fields (`CloneModel`) | equality with the original, nested induction over the tree |
| C87 | the context and frame after a frame header (`encode_frame_header` in `FrameModel`), the values read by `rd_header` (`FrameSpec`) | inversion of the whole header into its calls, the loops over the references by induction, agreement with the decoder on top of C80 |
| C88 | `start_tile` and `encode_whole_tile` (`WholeTileModel`): the reset, the loops over superblocks, restoration units and partition, any mode information | the loops over planes and passes give the literal values of the standard; that no tile is finished follows from the partition writer |
| C89 | the coder as `BoolCoder::new` makes it, `encode_symbol` with its loop, sessions of any calls, `encode_whole_tile` | a range of 0 stays 0 through every doubling (induction on the rounds); the first partition symbol of the first superblock |
| C90 | whole streams (`StreamModel`), the private field kept through changes of the context | invariant over programs: the number of bits is 0; the sequence header subtracts 1 from it |
| C91 | sequence header and frame header on one state; the decoder's state made from the parsed header (`av1_seq_of`) | the sequence header read back (C48) gives the premises of C80; sizes that differ make the override bit wrong, so the header is never read; the number of planes of the context is not taken from the header |
| C92 | the same, any OBUs in between | every other OBU leaves the part of the state the sequence header reads alone, except film grain; induction over the OBUs |
| C93 | the seen flag over streams; a decoder's flag (`flags`, section 5.9.1) | induction over the OBUs; computed witnesses for copies and frames shown again |
| C94 | programs on the bit writer | induction over the program on top of C25; two programs that differ in frames of OBU_FRAME run alike |
| C95 | the matrices and offsets of `quantizer.rs` (`QuantTables`) | computation over all entries through a search tree proved equal to the list |
| C96 | the step tables | computation over neighbours, induction for all pairs |
| C97 | the three filter tables (`FilterTables`), a filter applied to samples (`FilterSpec`) | sums and mirrored rows by computation, lifted to all samples by induction |
| C98 | reciprocals, masks, weights, cosines | computation over all entries, lifted to all pairs by sortedness and periodicity; enclosures of the real cosines of all multiples of pi / 128 by halving angles from cos 0 = 1 and cos (pi / 2) = 0 |
| C99 | `encode_partition` (`GeomModel`), the CDFs of the standard by width (`PartSpec`) | the writer is one symbol of a session over all 20 CDFs, so the round trip of sessions applies; refuted for widths below 128 by computation |
| C100 | `encode_split_or_horz`, `encode_split_or_vert` (`GeomModel`) | exact outcome for all valid tables; panic for all reachable tables from the lower bound of C101 |
| C101 | `update_cdf` as called by the symbol coder, sessions (`SessionModel`) | the update moves each entry by at most a fraction of its distance; induction over sessions and adaptive decoders |
| C102 | `encode_intra_tx_type`, `encode_inter_tx_type`, `get_tx_set` (`ContextModel`), the numbering of the standard (`TxTypeSpec`) | finite case analysis over sizes and types; the session round trip shows which type the decoder reads; types beyond the alphabet panic for every valid CDF |
| C103 | cfl_alpha_signs, transform_row_shift, cdef_* (`CdefTables`), geometry of offsets (`CdefSpec`) | case analysis over the finite domains |
| C104 | `code_inter` (ModeInfoModel) as a whole: references, candidate list, mode, index, vector; a decoder with any candidate list (`MotionSpec`) | composition of C61, C59, C62 and C63; both directions; for warps and high precision the encoder's own global vector and list (`AnyMotionSpec`) stand in for those of the standard |
| C105 | the text of `UtilModel`, `RangeCoderModel`, `BitCodecModel`, `SessionModel` with arithmetic read per build profile (`BuildModel`, written by `tools/gen_build.py`) | the debug reading is proved equal to those files; refinement through every function and loop; long literals are spelt as single bits |
| C106 | the release reading of the header codecs (`BuildModel`) | exact value read back for all arguments; witnesses for the refutations |
| C107 | the text of all model files of the encoder with arithmetic read per build profile (`BuildEncModel`, written by `tools/gen_build_enc.py`) | the debug reading is proved equal to those files; refinement through every function and loop |
| C108 | `main` in both profiles | size codes computed in wrapping arithmetic for all accepted sizes; the parser of `SeqSpec` on the release header; expected false for sizes below 3 |
| C109 | tile groups, whole tiles and frame headers in either profile | the proofs of C37, C67, C88 repeated for any profile; C89 by refinement |
| C110 | the writers of forced divisions in release semantics | exact outcome for all valid tables; the release code of a flag read by a decoder with the standard's probabilities; expected false |
| C111 | `code_deltas` of `ModeInfoModel` | reader of 5.11.38 and 5.11.39 on elements (`DeltaSpec`); induction over the loop filters; exact condition, expected false for large deltas |
| C112 | `code_inter` of `ModeInfoModel` for two references | one reader for references, mode, index and both vectors (`PairSpec`), composed from those of C59, C61 to C63; a wrong part is followed through the reader, so the condition is exact for the whole; fewer than two candidates are a separate theorem (`PairFewProofs`), where the first vector may be one an earlier block left |
| C113 | `encode_palette_color_idx_y/uv` of `ContextModel` | colour order, hash and order of positions of 5.11.49 and 5.11.50 (`PaletteSpec`) with a decoder on bits; every hash is legal by a check over all colours of three neighbours, the order is a permutation, positions follow their neighbours; induction over the positions on top of C45 |
| C114 | `encode_symbol`, `encode_literal` and the decoder of `RangeCoderModel`; `code_inter`, `code_deltas` | a reader as a program with one meaning on elements and one on bits (`BridgeSpec`); induction over the program on top of C03; all readers are programs; every element written is in range, part by part of `code_inter`; a literal carries only its low bits, so all deltas can be coded and the condition of C111 is exact on bits |
| C115 | the writers of motion vectors of `ContextModel` | the calls of 5.11.31 and 5.11.32 (`MvCallSpec`); they are legal, the reader of C63 gets the difference from them, C114 for the bits; converse by following the reader |
| C116 | the closure `encode_mv_component` (`MvComponentModel`) | elements for the two classes there are; the reader of C63 on them; arithmetic; expected false |
| C117 | `find_mv_stack` and `code_inter` (`MvStackModel`, `ModeInfoModel`), with the list of earlier blocks as an argument | entries from the count on are shown to be kept; the prediction of a block without a candidate for its mode is then the entry kept, and the reader of 7.10.2.13 (`LeftoverSpec`: a list filled up with the global vector) is followed as in C104 |
| C118 | the decoders of `RangeCoderModel`, `SessionModel` and `BitCodecModel` | the value is always below the range, so some symbol is found; readers that either use a beginning of the bits or panic on a beginning of readable bits are closed under sequencing (`DamageProofs`, `DamageFieldProofs`); the limit by the size is expected to be false: two runs that differ in the size only are compared step by step (`DamageSizeProofs`), and the count of bits left is followed (`DamageExitProofs`) |
| C119 | `encode_lr` (`LrModel`), `encode_mode_info` (`ModeInfoModel`), `enc_grain` (`FrameParamModel`) | one unit changes its own entry only; a superblock is the list of its units, without repetition (C82), so induction over the list gives each entry (`KeptProofs`); a frame is any sequence of its superblocks, each unit belonging to one of them (`KeptFrameProofs`); for blocks each step is followed through its fields, and likewise the state carried from block to block (`KeptStateProofs`) |
| C120 | `run_writer` and the writers of `ContextModel` | looking up a row is written separately (`entry`); one call changes one row, by the rule of C47; induction over the calls; the rule is a function, so equal symbols give equal rows (`AdaptProofs`) |
| C121 | `parse` (`OptionModel`) | expected false because of C31; otherwise the exact characterisation of success (C31) and induction on the permutation (`OrderProofs`) |
| C122 | the file behind `BinaryWriter::file`: a `BufWriter` (`FileModel`, from the documentation of the standard library), dropped at the end of `main` and not by `process::exit` | expected false; the bytes in the file are a function of the number written (induction from the end); induction over the frames with the number of the first failing read (`FileProofs`) |
| C123 | `main` as in C30-C34, with failing reads | expected false (sizes below 3); the panics of `parse` (C32) and of the sequence header (C28) and the loop over frames with and without a failing read (`FileProofs`) |
| C124 | `encode_coeff_base_eob` in both profiles (`ContextModel`, `BuildEncModel`); its sum is now checked as well | the difference and the sum modulo 2^64 in each of the four cases (`CoefReleaseProofs`); coding as in C107 |
| C125 | `run_writer`, `encode_angle_delta` and `encode_cfl_alpha_v` in the release profile (`BuildEncModel`) | an index outside the shape of the array panics whatever the coder's state, as in C45; the wrapped difference is 2^64 - 1 (`CoefReleaseProofs`) |
| C126 | `show_help_and_exit` and the usage texts (`HelpModel`), the parser of `OptionModel` | the flags are read off the printed lines by a separate reader (`HelpSpec`); every other string is an error or a panic by the classification of C31 (`HelpProofs`) |
