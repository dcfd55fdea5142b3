# Formal model of libmpegh in Rocq: design

The code under study is ittiam-systems/libmpegh at the commit checked out in
`/repo` (default build: `LC_LEVEL_4` off, x86_64 types). It is read as text; the
model is written by hand, function by function, and every definition cites the
lines it models. This file says what is modelled, how each property is stated
and proved, and what is trusted.

## Layout (rocq/theories)

| file | models (files in /repo/decoder) |
| --- | --- |
| `Bits.v` | specification of bit strings: MSB-first bit lists, their value, encoders |
| `BitBuf.v`, `BitWrite.v` | `ia_core_coder_bitbuffer.c`: concrete reader and writer with byte pointer, bit position, counter, 32-bit wrap, undefined behaviour as an outcome |
| `Prog.v`, `Wp.v`, `Wlp.v`, `Leaf.v`, `Loops.v`, `Frame.v` | deep embedding of bitstream parsers (programs over read/peek/skip/avail), concrete and abstract interpreters, refinement theorem, program logics |
| `Escape.v` | escaped integers |
| `Asi.v`, `Spec_Asi.v` | audio scene information, `impeghd_mhas_parse.c` (mae parts) |
| `Mhas.v`, `Loud.v`, `Spec_Mhas.v` | MHAS packets, PCM and earcon packets, loudness |
| `Config.v`, `Cicp.v`, `Hoa.v`, `Spec_Config.v` | stream configuration, `ia_core_coder_init_config.c`, CICP tables, HOA configuration |
| `HoaFrm.v`, `HoaVec.v` and their specifications | side information and vectors of HOA frames, `impeghd_hoa_frame.c` 143-651 without Huffman coded vectors |
| `Mdp.v`, `Spec_Mdp.v` | metadata preprocessing, `impeghd_metadata_preprocessor.c`, and `impeghd_mdp_dec_process` |
| `F32.v` | binary32 arithmetic (standard library `SpecFloat`) |
| `Oam.v`, `Spec_Oam.v`, `Spec_OamEnh.v` | object metadata, `impeghd_oam_dec.c`, `impeghd_oam_dec_ld.c`, and its use in `ia_core_coder_decode_main.c` |
| `Api.v`, `Spec_Api.v` | creation, configuration, allocation, deletion and rate selection, `impeghd_api.c` |
| `Ops.v`, `Spec_Ops.v` | fixed-point primitives, `ia_core_coder_basic_ops*.h`: WORD32/WORD64 as integers with explicit wrap, overflow and bad shifts undefined |
| `Pcm.v`, `Spec_Pcm.v` | conversion of decoded samples to output bytes, `ia_core_coder_decode_main.c`; samples are binary32 numbers |
| `Limiter.v`, `Spec_Lim.v` | `impeghd_peak_limiter.c`, binary32 |
| `ArithRom.v`, `Arith.v`, `Spec_Arith.v`, `Spec_Lines.v` | `ia_core_coder_arith_dec.c` 134-487 (symbol decoder, contexts, escapes, signs), tables of `ia_core_coder_rom.c`; encoder written separately |
| `Session.v`, `Spec_Session.v` | the init and execute calls as a state machine: `impeghd_api.c` 595-1127, `ia_core_coder_headerdecode.c`, `ia_core_coder_decode_main.c` (packet handling, configuration change); what the audio decoding of an access unit does to the state is an arbitrary outcome (record `env`) |
| `App.v` | the input loops of `test/impeghd_main.c` 567-790 for input that is not MP4, over an arbitrary decoder |
| `Preroll.v`, `Spec_Preroll.v` | pre-roll parsing, choice of the access units, move of the output: `ia_core_coder_decode_main.c` 817-904, 2603-2929, `impeghd_api.c` 1062-1092 |
| `Ei.v`, `Spec_Ei.v` | interaction and local setup packets, `impeghd_ele_interaction_intrfc.c` |
| `Mp4.v` | scene boxes of MP4 files, `test/mp4` |
| `DrcCfg.v`, `DrcGain.v`, `DrcCurve.v` and their specifications | DRC configuration, gain payloads and gain curves, `impd_drc_static_payload.c`, `impd_drc_dynamic_payload.c`, `impd_drc_gain_dec.c` |
| `ExtRen.v`, `Spec_ExtRen.v`, `ExtPcm.v` | external renderer interface, `impeghd_ext_rend_intrfc.c` and the PCM part of `ia_core_coder_decode_main.c` |
| `Mct.v`, `MctProc.v` and their specifications | multichannel coding tool, `impeghd_multichannel.c` |
| `CoreIcs.v`, `CoreSte.v`, `CorePair.v` and their specifications | window information, TNS, stereo side information, header of a channel pair, `ia_core_coder_ext_ch_ele.c`, `ia_core_coder_spectrum_dec.c`, `ia_core_coder_create.c` |
| `Spec_Flex.v`, `Displace.v` | flexible layouts; intended channel positions of `impeghd_scene_displacement.c` |
| `Lem_*.v` | proofs |
| `Props_*.v` | the property theorems only, each `exact lemma`, followed by `Print Assumptions`, and examples showing that hypotheses are satisfiable |

## Modelling decisions

* **Bit reader.** State = (byte list, byte index, bit position 7..0, remaining
  bits). `ia_core_coder_read_bits_buf` is modelled with its loop, the 32-bit
  unsigned accumulator (wrap explicit) and the final two shifts; a shift by a
  negative amount or by 32 and more, or an access outside the byte list, is the
  outcome `UB`. `longjmp` is the outcome `Jmp code`.
* **Parsers.** A parser is a value of the inductive type `prog A` (return, read
  n bits, skip n bits, query remaining bits, longjmp, undefined behaviour). C
  functions that return `IA_ERRORCODE` become programs returning `res A`
  (`Ok`/`Er`), so that callers which ignore the code can be modelled as such.
  Writes to C arrays carry an explicit bounds guard that yields `Ub` when the
  C code would write outside the array. Integer fields narrower than `int` are
  truncated explicitly where C truncates.
* **Refinement.** One theorem, proved by induction over programs, relates the
  concrete reader with the abstract semantics on bit lists, for all programs
  whose reads are at most 24 bits. All per-parser theorems are proved on the
  abstract semantics (round-trip) or with the program logic `safe`
  (all-input post-conditions, absence of undefined behaviour) and transported.
* **Floating point.** Where values computed in FLOAT32 are observable and exactly
  determined (object metadata) they are IEEE binary32 numbers (`SpecFloat` of the
  standard library, no axioms), assuming FLT_EVAL_METHOD = 0 and round to nearest.
  `pow` of the C library is an unconstrained parameter (record `powers`).
* **Not modelled:** floating-point signal processing as such (transforms,
  filters, rendering gains), except where a property is about it (the peak
  limiter and the output conversion, both in binary32).
  Contents of partially filled structs after an error return are not tracked
  unless a later step reads them.

## Properties: what is modelled and how proved

| id | model | method |
| --- | --- | --- |
| C01-C05 | `BitBuf.v` | arithmetic on Z (division/modulo), loop invariant; refutation by computation for long reads |
| C06 | writer loop | induction over field list |
| C07 | `read_escape_value`, `write_escape_value` as programs | round-trip lemma on abstract semantics, range by `safe` |
| C08-C09 | `impeghd_mhas_parse` | round-trip on abstract semantics; framing by consumption accounting; refutation witnesses where the code does not frame |
| C10-C16, C42 | `impeghd_mae_asi_*`, earcon, PCM packets | `safe` with loop invariants; round-trip with spec encoders; refutations by computation |
| C17-C18, C73 | `set_config_params`, `create` | case analysis over all integers |
| C19-C20, C74, C75 | allocation loop over an arbitrary allocator function, table of blocks, delete | induction over the table list |
| C21-C22, C79-C80, C83-C84 | API transition system | invariants over call sequences, `wlp` over the configuration parser, refutations for all states or by computation |
| C41 | application loops | invariant on the window of the file, progress measure; instantiated with the API model for the refutations |
| C81-C82 | pre-roll | list reasoning, round trip, case analysis over the unit loop |
| C23, C76 | sampling-ratio function and its use in init | case analysis |
| C24-C26, C67-C69, C71 | object metadata config and frame decoding, slot choice of the renderer | `wp`, induction over histories; binary32 for descaled values; refutations by computation or (C69) by induction |
| C70 | enhanced object metadata frames | `wp` invariant over histories, round-trip |
| C72 | earcon metadata for the renderer | loop invariant |
| C46-C49, C66 | further scene data | as C10-C16 |
| C50-C55 | further MHAS properties | as C08-C09 |
| C56-C65 | further configuration properties | as C27-C31; C65 by an encoder of whole configurations (Spec_ConfigFull) and invariants over the lists of groups, elements and extensions (Lem_ConfigElem, Lem_ConfigAll, Lem_ConfigTop) |
| C27-C31 | `ia_core_coder_mpegh_3da_config` and callees | `safe`, round-trip, refutations |
| C32 | `impeghd_fill_config` | `safe` |
| C33-C35, C78 | arithmetic decoder, ROM tables copied literally | interval invariant, termination measure, simulation with a spec encoder |
| C36-C38 | peak limiter in binary32 | rounding bounds through Flocq (`Lem_Round.v`), invariants over sample sequences, circular buffers as queues |
| C39, C77 | saturating primitives over Z with explicit range | lia/nia |
| C40 | PCM output loops over binary32 samples | exactness of scaling, comparison and truncation on multiples of 2^-149 (`Lem_F32.v`); induction over channels and samples; refutations by computation and for all full-scale samples |
| C85-C88 | interaction, scene displacement and local setup packets (`Ei.v`) | `wp`, round trips with spec encoders, general counterexamples; the BRIR reader and the loudspeaker geometry are not modelled |
| C43, C89-C92 | metadata preprocessing: switch groups, presets, on/off, channels heard, gain and position limits (`Mdp.v`, `Spec_Mdp.v`) | induction over groups and switch groups; specification reads statuses beside the scene; general counterexamples. Not modelled: loudness compensation, routing to wires, divergence and the list of object indices |
| C44, C93, C94 | DRC configuration parser (`DrcCfg.v`, `Spec_Drc.v`, `Spec_DrcCfg.v`); the loudness part is in `Loud.v` | `wp` for the parser with the two missing tests added, agreement of the real parser with it; `leaf` induction for the groups; round trip with a spec encoder; refutations by computation |
| C44, C95 | DRC gain payload (`DrcGain.v`, `Spec_DrcGain.v`): time and gain codewords, node times, reservoir. The codeword tables of the specification are written as bit strings, apart from the reader's tables | exhaustive bit tree for the gain codewords, induction over the time table for any history of initialisations, `wp`, round trip by induction over nodes, bands and sets |
| C96 | DRC gain curve (`DrcCurve.v`, `Spec_DrcCurve.v`): interpolation buffer per band, joining of segments, choice of the gain of a sample. The floats of the buffer are kept as the expressions they come from | invariant of a buffer over frames (the buffer is the curve up to the last node), lifted to all groups and bands; overrun lemma for the counterexample |
| C45 | MP4 scene boxes (`Mp4.v`, `Spec_Mp4.v`): the four readers of impeghd_mae_mp4_intrfc.c; of the description tables only lengths and ids, which decide about indices | round trip of each table by induction over the entries; overrun lemma for every box with too many entries; weakest preconditions for the readers with tests of the counts, and agreement of both readers unless the tests refuse; `Spec_Mp4Desc.v`: descriptions by induction over the rows, and for all texts of whole characters the place where the next number is taken from |
| C97, C98, C99, C100 | metadata for an external renderer (`ExtRen.v`: the three writers of impeghd_ext_rend_intrfc.c as lists of bit fields on the bit writer of `BitWrite.v`; `Spec_ExtRen.v`: the renderer's parsers, written from the payload syntax) | totality of the bit writer for any list of fields, so no payload leaves its buffer; round trip of writer and parser by induction over groups, objects, sub-frames and sectors; size bound by induction; witnesses by computation, for diffuseness and angles over all code values |
| C101 | samples for an external renderer (`ExtPcm.v`; words and interleaving from `Spec_Pcm.v`) | exact product by 256 and truncation as in C40, induction over channels and samples |
| C102, C103, C104 | side information of the multichannel coding tool (`Mct.v`: impeghd_mc_init, impeghd_mc_parse, impeghd_mc_parse_ch_pair, impeghd_mc_decode_huffman and the two code tables; `Spec_Mct.v`: codewords as bit strings, frames as pairs with a coefficient for each band of each window, references to the band, window or frame before) | the linear codeword search finds a word wherever the payload ends (pairwise test of the table lifted to all bit strings); round trip by induction over bands, windows, pairs and frames with the history as state; `wp` for arbitrary bits; completeness of the code tables for the bound of 19 bits; witnesses by computation |
| C105, C106 | the upmix of a pair (`MctProc.v`: impeghd_mc_process, impeghd_apply_mc_rotation, impeghd_apply_mc_prediction, the loop over windows, impeghd_mc_get_prev_dmx, impeghd_apply_mc_inverse_rotation, the cosine and sine tables; `Spec_MctProc.v`, `Spec_MctFill.v`: coefficient of a line through the scale factor band it lies in) | induction over lines, bands and windows with the invariant that exactly the lines of the bands done so far are changed; a line lies in band b of the tool iff its scale factor band is 2b or 2b+1. C106 is false for an even number of bands (loop leaves one band late): proved that such a window is never accepted |
| C107, C108 | flexible layouts (`Config.v`: flexispk, spk_description; `Spec_Flex.v`: layouts as values with their encoding) and where scene displacement finds a channel (`Displace.v`: scene_displacement.c:526-640) | round trip by induction over the loudspeakers (`Lem_Flex.v`); the cases in which the statements are false are proved for all layouts they concern |
| C109, C110, C111, C112 | side information of a channel pair coded in the frequency domain (`CoreIcs.v`: ia_core_coder_ics_info, ia_core_coder_win_seq_select, ia_core_coder_calc_grp_offset, ia_core_coder_read_tns_u; `CoreSte.v`: ia_core_coder_cplx_pred_data, ia_core_coder_read_ms_mask, the scale factor code book; `CorePair.v`: the pair part of ia_core_coder_data; `Spec_CoreIcs.v`, `Spec_CoreSte.v`, `Spec_CorePair.v`: windows, filters, stereo data and headers as values with their encoding) | round trips by induction over filters, windows, bands, groups and frames (`Lem_CoreIcs.v`, `Lem_CoreTns.v`, `Lem_CoreSte.v`, `Lem_CorePair.v`, `Lem_CoreProps.v`); safety for all bits (`Lem_CoreSafe.v`: the code book is complete, the coefficients grow by at most 24000 a frame). Gap filling active, linear prediction coded channels and the channel data itself are not modelled |
| C113, C114 | scale factors (`CoreScf.v`: ia_core_coder_section_data with its own 32-bit window, ia_core_coder_mpeghd_showbits_32, ia_core_coder_mpeghd_read_byte_corr1, ia_core_coder_huffman_decode and its tables) and the choice of bands (`CoreBands.v`: ia_core_coder_info_init, the tables per sampling rate); `Spec_CoreScf.v`: factors and their code; `Spec_CoreBands.v`: the bands of the standard as runs of widths | the window holds the 32 bits from a byte on (`Lem_CoreScf.v`), every code word is found and every 19 bits start with one, induction over bands and groups (`Lem_CoreScfRun.v`), safety (`Lem_CoreScfSafe.v`); bands by the general effect of the filling loops and one check of the twelve rates (`Lem_CoreBands.v`). The left shifts of the signed window are taken to wrap |
| C115 | header of a channel coded in the frequency domain (`CoreChan.v`: ia_core_coder_fd_channel_stream up to the spectral data, composed of the models of ics_info, section_data and read_tns; refusal close to the end of a frame that fills the input buffer). Not modelled: gap filling active for the element, the spectral data, forward aliasing cancellation | round trip of the whole header against `Spec_CoreChan` for a channel alone and for either channel after the pair header of C110; refusal as a counterexample; safety for any bits when 2400 are there, by weakest preconditions and a bound on the bits each part takes |
| C116 | levels of the gap filling (`Igf.v`: quant_ctx, igf_arith_decode_bits/_residual/igf_arith_decode, igf_reset_data, get_igf_levels of ia_core_coder_igf_dec.c; tables `IgfRom.v`; the arithmetic decoder of `Arith.v`). A level is kept as the exponent of which the C code takes the power of 2 in floating point. Not modelled: the filling itself (floats) | round trip against an encoder written down separately (`Spec_Igf`), by the invariant of the arithmetic coder over symbols, groups, windows; which levels can be sent; safety for all bits by a bound on the growth of the levels per frame, by induction over frames; unlimited growth and the backward skip as counterexamples |
| C117 | tiles, whitening, flattening flag (`IgfData.v`: get_igf_data, igf_decode_whitening_level) | round trip against `Spec_IgfData` by symbolic execution; safety by weakest preconditions |
| C118 | bands and tiles of the gap filling (`IgfInit.v`: igf_init, igf_get_num_tiles, igf_get_igf_min). Not modelled: flags only copied, reset of the channels | all rates reduce to the twelve nominal ones (C114); the seven tables x 256 indices x 2 resolutions are a finite case analysis by computation; the lowest line for every rate by arithmetic; counterexamples by computation |
| C119 | signal groups with own layouts (`Config.v`: signals, group_layout; `GrpLay.v`: the input list of impeghd_format_conv_init and the default of the group info). Not modelled: the rest of the converter | round trip by an invariant over the groups that numbers layouts by channel group; input list by induction over the groups; counterexamples computed |
| C120 | start of a stream (`StartUp.v`: first_frame, first_init, restart, limits, play): delay set up with the first frame, switch of the limiter, rates settled afterwards, frames through limiter and output conversion | the limiter is transparent for quiet signals (C36) and the conversion writes what it is given (`sat_ok`), so the bytes are those of the delayed signal without its first samples; the rates by cases; the false cases as general statements of what happens instead |
| C121 | side information of HOA frames (`HoaFrm.v`: chan_one, chan_rest, hoa_side, with role_part, amb_part, vec_part, gain_part) over the configuration of `Hoa.v`; vectors themselves not modelled | one channel by cases of its role, all channels by induction with an invariant on the marks; accepted configurations give the needed widths (C32); `_partial`: coefficient 49 with shortened vectors and the vectors are excluded; the former is refuted |
| C122 | vectors of HOA frames with codebook or 8-bit coding and which entries are used for a channel (`HoaVec.v`: vec_book, vec_words, vec_all, used_book, used_words). Not modelled: Huffman coded vectors, the arithmetic of the spatial decoder | tables filled entry by entry, induction over entries and signals; four witnesses through the whole reader for the false cases |
| C123 | the prediction part of HOA frames and how the spatial decoder takes the stored values (`HoaFrm.v`: hoa_pred, use_pred). The specification sends one gain for every used entry. Not modelled: the arithmetic of the prediction | tables of flags, signals and gains filled step by step (`Lem_HoaPred.v`), the use by induction over coefficients; three witnesses for the false cases |
| C124 | the settings in front of an HOA rendering matrix and their use for the loudspeakers (`Hoa.v`: rendering_matrix, pair_flags, gain_limits, find_symmetric, matrix_data). The pairs are specified by mirrored positions | every part read back from its own encoding by induction over pairs, orders and coefficients; that the pairs found are the mirrored ones is computed for each of the 21 layouts; safety (C60) excludes undefined runs |
| C125 | the gains and signs of an HOA rendering matrix (`Hoa.v`: matrix_cell, matrix_data). The specification gives each entry from what is sent, without the order of reading. A gain is held as a number of steps in dB; pow and the scaling by order (hoa_matrix.c:285-296) are not modelled | one entry read back in all its cases, then induction over the loudspeakers from last to first and over the coefficients, keeping that all entries done hold the wanted values (`Lem_HoaGain.v`); mirrored partners computed for each of the 21 layouts |

When the full statement is false of the code, the theorem `..._refuted` gives a
witness and the strongest true part is proved as `..._partial`.

## Trusted base

* The Coq 8.16.1 kernel (and `coqchk`).
* The faithfulness of the hand-written model to the C text, cited line by line.
* C semantics assumed: two's complement, 8/16/32/64-bit WORD types, arithmetic
  right shift of negative numbers, FLT_EVAL_METHOD = 0, round to nearest even, no
  contraction of `a * b + c` into a fused operation.
* `pow` of the C library: an arbitrary function (object metadata) or arbitrary
  results within 0..1 (limiter coefficients).
* Axioms, as listed by `Print Assumptions` under each theorem in `Props_*.v`:
  every theorem is closed under the global context, except
  `C36_within_threshold_partial`, `C36_nan_refuted`, `C37_transparent`,
  `C38_window_maximum`, `C120_start_partial` and `C120_restart_refuted`. These reason about rounding in the reals (Flocq) and list
  the four standard library axioms `ClassicalDedekindReals.sig_not_dec`,
  `ClassicalDedekindReals.sig_forall_dec`,
  `FunctionalExtensionality.functional_extensionality_dep` and
  `Classical_Prop.classic`. No axiom is declared in this development.
