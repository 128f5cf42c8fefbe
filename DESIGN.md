# Formal model of librmn: design

The model lives in `rocq/theories`, built with Coq 8.16.1. The source in
`/repo` is read as text only.

## Conventions

* Machine words are `Z`. Every definition that models a C expression wraps
  explicitly (`mod 2^32`, `mod 2^16`, ...), signed reads are explicit
  conversions.
* Arrays are `list Z`. A read or write outside the list makes the modelled
  function return `None`: `None` means "the C program left its buffer", it is
  never a success.
* A C shift by the word width or more is undefined. The model takes a
  parameter (`orc`, "oracle") giving whatever value the machine produces, and
  theorems quantify over every oracle unless they say otherwise.
* Every model definition cites the file and lines it models. Simplifications
  are listed in the same comment.
* Files: `*.v` without suffix hold the model, `*Facts.v` hold lemmas,
  `P_*.v` hold the property theorems (statement, `exact lemma`, an `Example`
  showing a non-trivial instance, `Print Assumptions`).
* When the code does not have the property, the theorem that is proved is
  named `..._refuted` and exhibits the input; the part that holds is proved
  beside it with its exact precondition.

## Trusted base

Coq's kernel; the transcription of the C/Fortran text into Gallina (made by
hand, function by function); the assumptions printed by `Print Assumptions`
at the end of each `P_*.v` file. For every theorem named in `MANIFEST.json`
except those of C46 to C48, `c37_params`,
`c37_any_date_refuted`, `c38_date_refuted` and the theorems of C39, C40 and C49 to C58, and `c60_data`, `c60_write` and the refutations of C60, `c61_all`, `c61_val`, `c61_next_refuted` and `c61_ip2_refuted`, that command answers "Closed under the global context": no
axiom is used, neither of the standard library nor of this development. These
exceptions speak of real numbers and use Flocq's floating-point numbers;
the command lists for them four axioms, all of the standard library:
`ClassicalDedekindReals.sig_not_dec`, `ClassicalDedekindReals.sig_forall_dec`,
`FunctionalExtensionality.functional_extensionality_dep`,
`Classical_Prop.classic`. (`coqchk` lists the
opaque constants of `Coq.ssr.ssrunder` because mathcomp-free parts of the
standard library load ssreflect; no theorem depends on them.)

## Plan per property

| id | what is modelled | how it is proved |
|----|------------------|------------------|
| C01-C04 | `stuff`, `extract`, `discard`, final flush, `Pack`, `Unpack`, `compact_integer` opcodes 1-4 without header, stride and bit offset | the packed array is abstracted to its big-endian bit list; each `stuff` overwrites b bits at the current position, each `extract` returns the next b bits; induction on the element count |
| C05 | `FindMinMax`, `constructHeader`, header mode | as above plus bit length facts |
| C06 | same reader with bounds-checked memory | exact read footprint; refutation when the last token ends on a word boundary |
| C07 | `compact_short`, `compact_char` | as C01; header mode refuted |
| C08-C09 | `compact_rle` encoder state machine and decoder | invariant relating emitted tokens to the consumed prefix |
| C10-C13 | `packTokensMinimum`, `packTokensParallelogram` and inverses, `armn_compress` wrapper | token streams parsed back tile by tile, on top of the bit list abstraction |
| C14-C16 | `c_armn_compress32`, 1-bit RLE, masks | as above |
| C17-C18 | missing value encoders/decoders for integer types | arithmetic, refutations for index 0 and signed short/byte |
| C19 | handle macros | bit-field arithmetic |
| C20-C28 | XDF random file engine: file table entry, directory pages, disk as a word map, list of disk writes | an invariant (`finv`: header, pages and records are apart, tile the file and are registered) kept by every call; an abstraction of a file to its records by position; theorems quantify over every history of calls (`hist`) and crash points are prefixes of the write list |
| C29-C30 | record buffer editing, generic keys | list surgery, bit-field arithmetic |
| C31 | `c_xdflnk`, `c_xdfunl`, page walk across linked files | the walk of a linked file simulates the walk of one file with the concatenated pages |
| C32 | `c_xdfuse` | induction on the parts of the source in file order; each put appends one position to the directory of the destination |
| C33 | `c_qdfrstr` | the copied prefix has the same registered words; opening reads only these |
| C34-C35 | date stamp arithmetic of `moduledate.f90`, Gregorian calendar | integer arithmetic over all dates; the calendar is compared with an independent day count |
| C36 | `c_sortx`, `c_ipsort`, heap sort, `permut` | heap and partition invariants, for an arbitrary order |
| C37-C40 | `c_fstecr`, `c_fstprm`, `c_fstinf`, `c_fstinfx`, `c_fstsui`, `c_fstinl`, `c_fstluk` on random files, data types 0, 1, 2, 4, 5 (32 bits) and 6 | bit-field arithmetic of the directory entry, date theorems of C34-C35, search and history theorems of C21-C25, packing theorems of C01-C04 |

| C41 | `c_mrbadd`, `c_mrbdel`, `c_mrbrep`, `c_mrbprm`, `c_mrbxtr`, `c_mrbloc`, `mrblocx`, `mrbcov`, `mrbdcv`, `mrbtyp` | an invariant (`good`): the words of the buffer are the keys, then the block headers, then the segments of the blocks at the places the headers tell; each edit keeps it; histories of edits are the relation `built` |
| C42-C44 | `mrbini`, `mrbupd`, `c_mrbhdr`, `c_mrfput`, `c_mrfget`, `mrfprm`, `mrfloc`, the report keys | the report keys are shown to do what the generic ones do, so that C20-C25 and C30 apply |

| C45 | `qbrptri`, `bufrchr`, `mrbsct`, `mrbtbl` | the last pass of the Shell sort is an insertion sort; invariant of the binary search |
| C46 | `mrbcvt` with Flocq's binary32 arithmetic (`Flo.v`) | error analysis of one product and one quotient |
| C47 | `float_packer.c` on words, comparisons and the subtraction with Flocq's binary32 | integers: each number times 2^149; error of truncation, shift and clamp; idempotence by cases on the clamp |
| C48 | `compact_float` (the template `compact.tmplc` for floats) on words, with Flocq's binary32 and binary64 | each double operation is exact or has one rounding; the exponent of the range leaves room for the tokens; the header keeps the minimum; tokens and header words by the bit lemmas of C01 |
| C49 | the same calls with data types 129 and 130, the compressor of C17-C19 and the packers of C47-C48 | packing, compressing and the file compose; what the reader does not undo is shown by refutations |
| C50-C52 | `CONVIP_plus`, new codes, with Flocq's binary32 and binary64 | the scaling loop is followed over exact powers of ten with the error of each turn; where it ends depends on the number in a monotone way; the five-digit integer is rounded once; decoding divides twice and is compared with the integer |
| C53 | `CONVIP_plus`, old codes | one product and one rounding per range; ranges of codes that do not overlap |
| C54-C55 | `encode_ip_0`, `decode_ip_0`, `encode_ip_2`, `decode_ip_2` on top of `CONVIP_plus` | cases of the kinds, with the accuracy and order of C50 and C52; codes of the new style are above 32767 |
| C56-C58 | the table of 50 sets of `excdes_new.c`, on top of `CONVIP_plus` and `difdatr` | an invariant between the table and the sets as described, kept by each call; one lemma per criterion (texts, levels, dates, supplement); the loop on the sets by induction |
| C59 | `c_fsteff`, `c_fstnbrv` on the files of C20-C31 and C37-C40 | histories are those of C20 with edits added; the effect of deleting on the record table, then searches as a function of that table |
| C60 | `c_fst_edit_dir_plus` on the same files | an edit replaces one directory entry and keeps its type, address and length, so that the invariants of the files hold; the fields of the entry by the bit lemmas of C37; the theorems on searching and writing are restated for histories with edits |
| C61 | `c_fstinfx` with the lists of `c_ip1_all` ... `c_ip3_val` on the same files | the comparison of two codes against exact decimal values; the loop against the enumeration of C38 for the search without the listed keys; what changing the target of the next search leaves alone |
| C62 | MD5 digest and HMAC of `md5.c`, words of 64 bits as the code has them | the low 32 bits of each word against a separate text of RFC 1321; an invariant of the context for the message so far, whatever the pieces; HMAC against RFC 2104 |
| C63 | ARC4 cipher of `arc4.c` | the table in the context against the published algorithm on functions; induction on the pieces |
| C64 | `update_crc_ne` (16, 24 and 32 bits, machines of both byte orders) and `calc_crc` | checks one bit at a time are linear: a table holds the effect of 8 shifts on a byte (256 cases computed, the rest by linearity); induction on the data and the pieces; shifts lose nothing, so a changed byte changes the result |

Properties C37 and up were added as the model grew; see the sections below and
the notes in `MANIFEST.json`.

## What is modelled

| model file | source |
|------------|--------|
| `BitIO.v`, `CompactInt.v`, `CompactShort.v` | `src/packers/compact_integer.c`, bit macros of `bitPacking.h` |
| `CompactRle.v` | `src/packers/compact_rle.c` |
| `TileCodec.v` (with `ZfstLib.v`) | `src/compresseur/c_zfstlib.c`: token packers, `armn_compress` |
| `Compress32.v` | `src/compresseur/armn_compress_32.c` |
| `Missing.v`, `MissingInt.v` | `src/fstd98/fst_missing.c` |
| `Handles.v` | handle macros of `qstdir.h` |
| `WaFile.v` | word-addressable access of `src/primitives/c_baseio.c`, unpaged, as used by XDF |
| `Xdf.v`, `XdfSearch.v`, `XdfOpen.v`, `XdfHist.v`, `XdfSta.v` | `src/fstd98/xdf98.c`: put, get, del, loc, opn, cls, prm, sta, checkpoint, random files |
| `XdfKeys.v` | `build_gen_prim_keys`, `build_gen_info_keys`, `c_xdfupd`, `c_xdfini` |
| `XdfBuf.v` | `c_xdfadd`, `c_xdfins`, `c_xdfrep`, `c_xdfcut`, `c_xdfxtr`, `c_xdfhdr` |
| `XdfLink.v` | `c_xdflnk`, `c_xdfunl` |
| `XdfRstr.v`, `XdfUse.v` | `c_qdfrstr`, `c_xdfuse` |
| `Fst.v` | `src/fstd98/fstd98.c`: `c_fstecr`, `c_fstprm`, searches, `c_fstluk`, `c_fstouv` (option RND), default switches, data types 0, 1, 2, 4, 5 (32 bits), 6, 129 and 130 without missing values |
| `FstEff.v` | `src/fstd98/fstd98.c`: `c_fsteff`, `c_fstnbrv`, `c_fst_edit_dir_plus` (its ni, nj, nk and datyp arguments are ignored by the code); the validation of the date is that of `c_fstprm`; reads outside of the directory are errors |
| `FstIps.v` | `src/fstd98/fstd98.c`: `c_ip1_all`, `c_ip1_val` and those of ip2 and ip3, `init_ip_vals`, `ip_is_equal`, `c_fstinfx` when a list is in use (the cases of sequential files and of linked files left out); signed 64 bit overflow and writing past a list: `None` |
| `Md5.v` | `src/primitives/md5.c`: `md5_starts`, `md5_process`, `md5_update`, `md5_finish`, `md5`, the loop of `md5_file` (without the file), `md5_hmac_starts`, `md5_hmac_update`, `md5_hmac_finish`; an unsigned long of 64 bits; the registers of `md5_process` are rotated instead of renamed. Specification: `Md5Spec.v` |
| `Arc4.v` | `src/primitives/arc4.c`: `arc4_setup`, `arc4_crypt`; an empty key (which the code reads past) is left out. Specification: `Arc4Spec.v` |
| `Crc.v` | `src/primitives/crc16_.c`, `crc24_.c`, `crc32_.c`: `crc*_update`, `crc*_update_le`, `crc*_init`, `crc*_finalize`; `crc_16_24_32.c`: `update_crc_ne`; `calc_crc.c`: `calc_crc`. Not modelled: `crc*_reflect` (not used), `crc32.c` and the Fortran entry points. Specification: `CrcSpec.v`. Theorems: `P_Crc.v`, no axioms |
| `Burp.v`, `Burp2.v` | `src/fstd98/burp98.c` and the report functions of `src/burp98_f` (without supplementary keys and options), stride 1 |
| `BurpTbl.v`, `BurpCvt.v`, `Flo.v` | `qbrptri.F90`, `bufrchr.F90`, `mrbcvt.F90`; the table read by `qrbsct.F90` is an input, 10.0 ** k a parameter |
| `FloatPack.v` | `src/packers/float_packer.c`; shifts of negative integers are arithmetic, integer overflow and reads out of bounds are errors |
| `FloatField.v` | `src/packers/compact.tmplc` for `compact_float`, tokens of at most 32 bits, both header styles, missing values; a conversion of a double out of range and reads out of bounds are errors; the fields of a `double` (bitPacking.h) are those of IEEE; powers of 2 are exact (`f_pow.f` is `2.0d0**k`) |
| `Convip.v` | `src/fstd98/convip_plus.f90`: `CONVIP_plus` modes -1, 0, 1, 2, 3 without the character string, `conv_kind_15`; `is_invalid_kind` of `convert_ip123.f90` |
| `ConvertIp.v` | `src/fstd98/convert_ip123.f90`: `EncodeIp`, `DecodeIp`, `ConvertPKtoIP`, `ConvertIPtoPK`; variables without a value are errors when read |
| `Excdes.v` | `src/fstd98/excdes_new.c`: all but the Fortran entries, the directives (`directive_*`), `dump_request_table` and `fstmatch` on a file; sets and arrays out of range are errors; FstCanTranslateName is a parameter |
| `Dates.v` | `src/base/moduledate.f90`, Gregorian calendar |
| `Sort.v` | `src/base/sort.f`, `isort.f`, `ipsort.c`, `permut.f` |

Concurrency is not part of the model: the library has no threads of its own,
and a file is open in one program at a time. A write call of the operating
system is atomic with respect to crashes at the granularity of one `wawrit`
call for the header page (C27); all other writes can be cut at any word.

## What is not modelled

* Sequential XDF files (`c_xdfopn` on a file without directory), the 1989
  formats (`fstd89`), paged word-addressable files inside the XDF model,
  remote files, `c_qdfdiag`.
* `compact_double` and `compact_IEEEblock_*`.
* 365 and 360 day calendars.
* Interpolation (`src/interp`), GMM, the white board, the parts of `fstd98.c`
  not listed above (other data types, remapping, image mode, `c_fstnbr`,
  `c_fstlic`), the reading of the table of elements
  (`qrbsct`).
* Memory allocation failures and log output.

## Findings

Places where the code does not do what a user would expect. Those with a
theorem are proved on the model (`..._refuted`).

Packing:
* `compact_integer`: the last token ending on a word boundary makes the reader
  load one more word (C06); the header of an automatically sized constant array,
  32-bit wide ranges and `abs(INT_MIN)` are mishandled (C05); `compact_short`
  and `compact_char` in header mode pass a minimum of 0 (C07); `cleanupMask` is
  computed before the automatic width.
* `compact_rle`: pending repeats are dropped at the end, `maxRepeat <= 1` and
  width 32 break the stream (C08).
* `armn_compress`: only the first ni*nj points of a field with nk > 1 are
  compressed (c10_planes_refuted); decompression writes one word too many.
* `armn_compress_32`: `pack1bitRLE` reads one element past the field; a field
  stored with 10 bits can overflow the output buffer; the space test is not made
  after the last tile; memory is lost when the exponent stream fails; the
  word meant for the mantissa length holds the sign length.
* `float_packer`: the unpacker reads one word past the data when the number of
  values is even (c47_reads_past_refuted); denormal numbers and zeros get the
  hidden bit, so that a zero in a field below 2^-103 comes back as another
  number (c47_tiny_refuted).
* Missing values: a missing value in element 0 is not restored; signed short
  and byte use -1 as the code whatever the width; when the maximum plus 1 is
  itself the missing value it collides; encode and decode disagree on the type
  for datatype 5 with 64 bits (C17).

XDF files:
* Handles: a sequential file in the table changes the meaning of the handles of
  files in slots 128 and up; more than 4096 linked pages alias (C19).
* `c_xdfdel`/`c_xdfget` accept record number = number of entries (off by one);
  the unused half of a new directory page is written uninitialised; idtyp 126 can be written and found
  but not read, and disappears at close; records of 128 MB or more are
  registered truncated (24-bit length); a zero length record, once deleted,
  overwrites two words of its neighbour at close; `c_xdfget` compares the record
  length with the whole buffer, not with the capacity of its data part.
* `c_xdfopn`: a failed open leaves the unit marked open; a full file table
  yields index -3; CREATE does not truncate; the test `wdaddress == 0` cannot
  trigger; a checksum mismatch is only logged; the write flag is not written to
  disk on open.
* Search: a put moves the current entry but not the current page pointer, so that
  continuing with -1 afterwards fails (c21_next_after_put_refuted); generic keys that do not span all key
  words make records of the second half of a page invisible
  (c21_generic_unspanned_refuted); `c_xdfloc2` with a NULL mask uses
  uninitialised masks.
* Links: deleting through a link is lost (c31_delete_refuted); continuing by
  explicit handle stops (c31_by_handle_refuted); starting three pages or more
  into the linked files goes to the wrong page (c31_from_handle_refuted); a
  directory page added to a linked file loses the link.
* `c_xdfuse`: errors of `c_xdfput` are ignored; deletions of a source that is
  still open are ignored (c32_open_source_refuted); what lies after the
  registered end is copied (c32_leftovers_refuted); a part of length 0 loops for
  ever; keys of records shorter than the keys come from the previous record.
* `c_qdfrstr`: no test that the registered size is within the file; an
  interrupted early close gives a header ahead of the directory.
* Buffer editing: `c_xdfcut` and `c_xdfrep` always refuse datyp 3 (operator
  precedence); `c_xdfins` and `c_xdfrep` have already changed the buffer when
  they refuse a type; bounds are compared with `nwords` although the data part
  has 10 words less.
* `c_xdfini` clears the buffer before refusing a type; `c_xdfcle` masks have no
  effect (arithmetic shift).

Standard files:
* Dates: the octal encoding of the last digit of a date loses a run number of 8
  or 9 of an old stamp (c37_any_date_refuted); a search by date ignores the last
  digit, so that records less than 40 s apart are not told apart
  (c38_date_refuted), and a criterion ending in 8 or 9 is compared with the next
  decade.
* Searches: an etiket with ten blanks followed by two characters is a wildcard;
  the flags `ip2s_flag` and `ip3s_flag` are only tested inside `ip1s_flag`.
* Rewriting ignores the date, and blank nomvar, typvar or etiket act as wildcards.
* `c_fstecr`: the int product ni*nj*nk*nbits overflows before the test of the
  record length; datyp outside 0..255 is stripped to another type; datyp 130
  whose compression fails is stored one word further than it is read
  (c49_fallback_refuted); compressed integers of 16 bits come back with the sign
  of a short (c49_sign_refuted); of several levels only the first is compressed
  and the others are lost (c49_levels_refuted); datyp 129 with fewer than 16 bits
  stores tokens 16 bits apart and reads them closer (c49_bits_refuted); the
  length of a record is tested with the number of bits asked for, so that types 6
  and above 128 can go beyond the limit; datyp 2 with the byte switch
  packs `Min(8,nbits)` bits and unpacks 8; datyp 3 writes (ni*nj+3)/4 words and
  reads (ni*nj*nk+3)/4.
* `crack_std_parms`: the int product deet*npas overflows. `c_fstprm` always gives
  dltf = 0.
* `c_fstinl`: when nmax is exceeded, ni, nj and nk are those of the last record
  found; nmax = 0 miscounts.
* `c_fst_edit_dir` changes the directory of a read-only file in memory, and lets
  a page number equal to the number of pages through.

Reports:
* `c_mrbadd`: the number of bits is changed before the block header may be
  refused, and the header stays when the values are (c41_refused_add_refuted);
  `memset(&entete,sizeof,0)` clears nothing; three elements are read even when
  there are fewer; the element list is written without a test of the room;
  bit0 has 20 bits, dimensions 16 bits: larger ones are truncated; `datyp == 0`
  compares a pointer, so that transparent data are repacked
  (c41_transparent_refuted); `-INT_MIN` overflows.
* Data type 3: `c_mrbrep` always fails and `c_mrbdel` ignores the refusal of
  `c_xdfcut`, which damages the following blocks (c41_characters_refuted).
* `c_mrbprm` does not test the block number; data types of 32 or 64 bits with an
  odd number of values use one word past the caller's array; the loop over the
  missing values in `c_mrbxtr` ignores the stride.
* `c_mrfput` keeps the number of blocks in 16 bits.
* `mrbcov` does not mask YYY (c41_long_code_refuted); `mrbtyp` returns a positive
  code for a wrong type; the codes `ERRDAT` and `ERCLEF` of `mrbini`, `mrbupd` and
  `mrfloc` are overwritten; `mrfloc` compares the hours of `temps` only; `mrbsct`
  appends the user's elements after a table that is searched by bisection
  (c45_added_refuted), without a test of the room. `mrbcvt` changes the codes when
  it decodes, so that decoding twice takes values for missing ones
  (c46_decode_twice_refuted); codes above 24 bits lose bits
  (c46_long_code_refuted).

Reals in tokens:
* `compact_float`: when every value is missing the search for one that is not runs
  past the array (c48_all_missing_refuted); the header cannot hold a subnormal
  minimum, which is read as 0 or as another small number (c48_tiny_refuted); the
  exponent of a zero minimum is masked with `0x111` instead of `0xfff`; the number
  of values of the first style is not checked (both sides of the comparison come
  from the call); `compact_double` keeps the tag of missing values in a `float`.

Levels:
* `CONVIP_plus`, new codes: negative numbers between -1e-11 and 0 come back as 1e-5,
  a positive number (c50_tiny_refuted); indices above 480000000 get the code -1 (c50_index_refuted); kinds
  8, 9, 11 to 14, 16, 18 to 20 and 22 to 30, which have no meaning, are encoded and
  come back as another kind or not at all (c50_kind_refuted); kind 31 is always
  refused because its bounds are reversed; a NaN passes the test of the range; two codes can stand for
  one level (c51_code_refuted).
* Old codes: pressures just below 10, 1, 0.1, 0.01 mb and 1100 mb get the code of
  another kind or of 0 mb (c53_pressure_refuted); codes 1 to 9 and the
  first 19 of each decade do not come back (c53_codes_refuted).
* `DecodeIp`: `kind(2)` and `kind(3)` have no value when ip2 or ip3 is an old code,
  yet are read (c54_old_refuted), even for the layer from 1000 mb to 0 mb that
  `EncodeIp` made (c54_top_refuted); depths and pressure heights (kinds 7 and 21)
  that `EncodeIp` accepts are flagged as errors (c54_depth_refuted); a third value
  in hours or of the kind of the level is taken for the other end of a range
  (c54_third_refuted). `ConvertIPtoPK` takes a third level of 0 mb for the arbitrary code 0
  (c55_top_refuted).

Selection of records (`excdes_new.c`):
* An open interval of levels accepts every level of the same kind, because the
  bounds are put in order after the missing one took the record's level (c57_open_refuted);
  the criterion on ig4 is compared with the record's ig2 (c57_ig4_refuted); a
  bound with an extended date stamp (below 0) is taken for an open one (c57_extended_refuted).
* Level 0 in the old and the new code do not match (c57_zero_refuted); codes that cannot be
  decoded match each other; two neighbouring new codes with six digits or more match.
* A refused call forgets the dates of the set (c58_refused_refuted); a refused list of dates
  leaves the set in use with no criteria, so that it accepts every record (c58_bad_dates_refuted).
* "Every 6 minutes" (a step given as a real) refuses some of its multiples; a record 5 seconds after a step may
  be accepted; an interval whose first date is not valid is taken for an open one.
* Outside the model's defined part: a set number above 49 is refused but still written;
  `C_select_*` before `C_filtre_*` uses set -1; after 50 calls of `C_filtre_*` the current set is 50; a
  list [v, -2, w] makes the code read a fourth value; a negative first set of a group is accepted.
  Sets described before the first `fstouv` are lost.

Erasing and editing records:
* The date given to `c_fst_edit_dir_plus` is stored as the date of validity, where `c_fstecr` takes the
  date of origin: asking for the date that a record has moves it by deet * npas (c60_date_refuted).
* A record of a file open for reading can be edited; the edit is seen by searches and lost
  when the file is closed (c60_readonly_refuted). A record that was deleted can be edited (and stays deleted).
* A handle of a closed file, or whose page is the one after the last, is not refused and
  memory outside of the directory is used (c60_handle_refuted).
* ni, nj, nk and datyp are arguments but ignored. Only the directory is edited: the copy of the keys that
  goes before the data keeps the old values, and rebuilding a directory from it loses the edit.
* `c_fstnbr` gives the number of records counted when the file was opened, whatever was written since.
* In a search with several values of ip2 or ip3 (`ip2_all`, `ip3_all`) these lists are consulted only if
  there is also a list for ip1 (and that of ip3 only if there is one for ip2): `c61_ip2_refuted`.
* After a search with lists of levels, `c_fstsui` continues with the codes of the record found: records of the
  same level in the other encoding, or of other levels listed, are not given (`c61_next_refuted`). The lists are
  forgotten by the search, so they have to be given again for each call.
* Comparing two codes of one kind whose exponents are more than 12 apart overflows 64 bits (`c61_overflow_refuted`).

Primitives:
* `c_baseio.c`: the buffer that fills holes is cleared over 2048 bytes only; a short
  write is retried from the start of the buffer; reading past the end by 2 words or more exits
  the program; paged access computes a wrong page when the address is a multiple of the page size.
* `update_crc_ne`: no mode both starts and ends a check, so data in one piece need a second call; words of 3 bytes make it read
  outside of the data on machines with the low byte first (c64_size_refuted).
* Sorting: one NaN leaves the numbers out of order (c36_nan_refuted); `ipsort`
  writes `index[0]` for size 0.
* Dates: minutes are dropped before 1980; the error value 101010101 is also a
  date; 1901/01/01 01Z cannot be converted back (c35_oddity_refuted); the last
  minute of 2235 cannot be reached (c35_last_minute_refuted); mode 6 accepts a
  stamp that mode -5 refuses; new stamps with unit digit 8 or 9 are accepted.
