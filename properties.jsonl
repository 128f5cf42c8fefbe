{"id": "C01", "title": "Unsigned integer packing round-trips", "statement": "Packing an array of unsigned integers with compact_integer (no header, opcode 1) into b-bit tokens and unpacking the result with the same b, offset and stride (opcode 2) returns every element unchanged, whenever every element is smaller than 2^b.", "quantifier": "every element count, every token width 1..32, every bit offset, every array of values below 2^b, every previous content of the packed buffer", "why_tests_cant": "The tokens straddle 32-bit words in ways that depend jointly on width, offset and index; the set of (width, offset, count, values) is unbounded.", "anchors": ["src/packers/compact_integer.c: compact_integer, Pack, Unpack, pack32Bit, packBit", "include/bitPacking.h: stuff, extract, discard"]}
{"id": "C02", "title": "Signed integer packing round-trips", "statement": "compact_integer opcodes 3/4 (signed, no header) return every element unchanged whenever every element lies in [-2^(b-1), 2^(b-1)).", "quantifier": "every count, width 1..32, offset and signed array in range", "why_tests_cant": "Same unbounded product of widths, offsets, counts and values; sign bias interacts with masking at b = 32.", "anchors": ["src/packers/compact_integer.c: compact_integer, Pack, Unpack", "include/bitPacking.h: stuff, extract, discard"]}
{"id": "C03", "title": "Packing touches only its own bits", "statement": "Packing n tokens of b bits at bit offset `off` leaves every bit of the destination array outside [off, off+n*b) exactly as it was, and writes inside that range the big-endian b-bit images of the values in order.", "quantifier": "every buffer content, offset, width, count, values", "why_tests_cant": "A frame property: it speaks about all bits not written, for all alignments; tests sample only a few alignments.", "anchors": ["src/packers/compact_integer.c: pack32Bit, packBit, Pack", "include/bitPacking.h: stuff, extract, discard"]}
{"id": "C04", "title": "Out-of-range unsigned values are reduced modulo 2^b and never disturb neighbours", "statement": "When a value does not fit in b bits, unpacking returns that value modulo 2^b and all other elements are unaffected.", "quantifier": "every array of 32-bit values, every width, offset", "why_tests_cant": "Needs all overflow patterns at all token positions.", "anchors": ["src/packers/compact_integer.c: Pack (cleanupMask)"]}
{"id": "C05", "title": "Integer packing with a header round-trips up to the declared shift", "statement": "With a header, unpacking returns min + ((x-min) >> s << s) for the shift s stored in the header; in automatic width mode (bitSize = -1) s is 0 and the array is returned unchanged.", "quantifier": "every integer array with at least one element, every width", "why_tests_cant": "The header fields (min, max, shift, width) depend on the data; range boundaries such as max-min = 2^32-1 are rarely sampled.", "anchors": ["src/packers/compact_integer.c: constructHeader, FindMinMax, compact_integer"]}
{"id": "C06", "title": "Unpacking stays inside the packed array", "statement": "Unpacking n tokens of b bits at offset off only reads words that hold some requested bit.", "quantifier": "every offset, width and count", "why_tests_cant": "An over-read by one word is invisible to value-based tests.", "anchors": ["src/packers/compact_integer.c: Unpack", "include/bitPacking.h: stuff, extract, discard"]}
{"id": "C07", "title": "Short and char packing round-trips", "statement": "compact_short (5/6) and compact_char (9/10) return all values that fit in b bits unchanged, with and without header.", "quantifier": "every array of 16-bit / 8-bit values, width, offset", "why_tests_cant": "Same unbounded product; header mode depends on the data range.", "anchors": ["src/packers/compact_integer.c: compact_short, compact_char"]}
{"id": "C08", "title": "Run-length packing round-trips", "statement": "compact_rle pack followed by unpack returns the original array.", "quantifier": "every array, every token width 3..31 leaving room for repeat codes above the data range", "why_tests_cant": "Run structure of the data is unbounded: runs of any length, in any order, ending anywhere.", "anchors": ["src/packers/compact_rle.c: compact_rle"]}
{"id": "C09", "title": "Run-length packing never emits a token wider than its width", "statement": "Every token written by compact_rle fits in the token width.", "quantifier": "every array and width", "why_tests_cant": "Overflow occurs only for particular run lengths and range/width combinations.", "anchors": ["src/packers/compact_rle.c: compact_rle"]}
{"id": "C10", "title": "16-bit field compression is lossless (tile-minimum method)", "statement": "armn_compress COMPRESS followed by UNCOMPRESS restores the 16-bit field exactly when the tile-minimum method is used.", "quantifier": "every field ni x nj of values below 2^nbits, nbits 1..16", "why_tests_cant": "All tile shapes (including partial edge tiles), all value distributions per tile.", "anchors": ["src/compresseur/c_zfstlib.c: packTokensMinimum, unpackTokensMinimum"]}
{"id": "C11", "title": "16-bit field compression is lossless (parallelogram method)", "statement": "armn_compress COMPRESS followed by UNCOMPRESS restores the 16-bit field exactly when the parallelogram predictor is used.", "quantifier": "every field ni x nj of values below 2^nbits, nbits 1..16", "why_tests_cant": "Prediction differences reach 17..18 bits for adversarial fields; container-width selection depends on every point of the field.", "anchors": ["src/compresseur/c_zfstlib.c: packTokensParallelogram, unpackTokensParallelogram"]}
{"id": "C12", "title": "Failed compression leaves the field untouched", "statement": "When armn_compress returns -1 the caller's array holds exactly the bytes it held before the call.", "quantifier": "every field, dimensions and nbits", "why_tests_cant": "The failure path depends on the compressed size of arbitrary data.", "anchors": ["src/compresseur/c_zfstlib.c: armn_compress"]}
{"id": "C13", "title": "Compression never claims success with a larger result", "statement": "When armn_compress returns a length, that length is smaller than the size of the uncompressed 16-bit field, and the bytes fit in the caller's array.", "quantifier": "every field", "why_tests_cant": "Depends on compressibility of arbitrary data.", "anchors": ["src/compresseur/c_zfstlib.c: armn_compress"]}
{"id": "C14", "title": "32-bit float compression is lossless when 32 bits are kept", "statement": "c_armn_compress32 with znbits = 32 followed by c_armn_uncompress32 returns the same 32-bit patterns; with fewer bits it returns the patterns with exactly the dropped low mantissa bits cleared.", "quantifier": "every field of 32-bit patterns (including NaN, denormals, both zeros), every znbits", "why_tests_cant": "2^32 patterns per point and all field shapes.", "anchors": ["src/compresseur/armn_compress_32.c: c_armn_compress32, c_armn_uncompress32, packTokensParallelogram32, packTokensParallelogram_8"]}
{"id": "C15", "title": "One-bit run-length coding round-trips", "statement": "pack1bitRLE followed by unpack1bitRLE returns the original mask.", "quantifier": "every 0/1 sequence of every length", "why_tests_cant": "Three different codes chosen by run lengths and remaining length.", "anchors": ["src/compresseur/armn_compress_32.c: pack1bitRLE, unpack1bitRLE"]}
{"id": "C16", "title": "Mask packing round-trips", "statement": "compact_mask_char followed by uncompact_mask_char returns the original 0/1 mask.", "quantifier": "every mask of every length", "why_tests_cant": "All lengths modulo 32.", "anchors": ["src/compresseur/armn_compress_32.c: compact_mask_char, uncompact_mask_char"]}
{"id": "C17", "title": "Missing-value encoding is invertible", "statement": "EncodeMissingValue followed by DecodeMissingValue returns missing points as the missing value and leaves all other points unchanged.", "quantifier": "every integer array, every set of missing positions, every width able to hold one more code than the data", "why_tests_cant": "The plug value depends on the data maximum, position 0 and type width.", "anchors": ["src/fstd98/fst_missing.c: fst_int_encode_missing, fst_int_decode_missing, fst_short_*, fst_byte_*, fst_uint_*"]}
{"id": "C18", "title": "Fields without missing values are not altered", "statement": "When no element equals the missing value the encoder reports 0 and the source array is what gets stored.", "quantifier": "every array", "why_tests_cant": "Over all arrays and types.", "anchors": ["src/fstd98/fst_missing.c: EncodeMissingValue"]}
{"id": "C19", "title": "Record handles identify one record", "statement": "The handle returned for a record decodes to the file, directory page and record number it was built from, and two different records of open files never share a handle.", "quantifier": "all file indices, page numbers and record numbers within the library limits", "why_tests_cant": "All triples within limits.", "anchors": ["src/fstd98/qstdir.h: MAKE_RND_HANDLE, INDEX_FROM_HANDLE, PAGENO_FROM_HANDLE, RECORD_FROM_HANDLE, MAKE_SEQ_HANDLE", "src/fstd98/xdf98.c: make_seq_handle, address_from_handle"]}
{"id": "C20", "title": "A record that was written can be read back", "statement": "After c_xdfput succeeds, c_xdfget with the handle of the new record returns exactly the words that were put, until that record is deleted or rewritten.", "quantifier": "every history of put, delete, rewrite and search operations on an open random file", "why_tests_cant": "All histories.", "anchors": ["src/fstd98/xdf98.c: c_xdfput, c_xdfget2, add_dir_page"]}
{"id": "C21", "title": "Search returns exactly the matching live records", "statement": "Repeated c_xdfloc2 starting from handle 0 and continuing with each returned handle enumerates, in directory order and once each, exactly the records that are not deleted and match the masked keys; then reports not found.", "quantifier": "every directory content over any number of pages, every target and mask", "why_tests_cant": "All directories, all masks, all continuation points.", "anchors": ["src/fstd98/xdf98.c: c_xdfloc2, next_match"]}
{"id": "C22", "title": "Deletion is local and permanent", "statement": "c_xdfdel makes exactly one record unreachable by search and get; no other record changes; a second deletion of the same handle fails and changes nothing.", "quantifier": "every file state and handle", "why_tests_cant": "All histories.", "anchors": ["src/fstd98/xdf98.c: c_xdfdel, c_xdfget2, next_match"]}
{"id": "C23", "title": "File statistics count what is in the file", "statement": "At every moment the number of valid records reported by c_xdfsta equals the number of live directory entries, nxtn the total number of entries, nbd the number of directory pages.", "quantifier": "every history of operations", "why_tests_cant": "Inductive invariant over histories.", "anchors": ["src/fstd98/xdf98.c: c_xdfput, c_xdfdel, c_xdfsta, c_qdfdiag"]}
{"id": "C24", "title": "Records and directory pages never overlap on disk", "statement": "The word ranges occupied by the file header, directory pages and record bodies are pairwise disjoint and lie below the end of file.", "quantifier": "every history of operations", "why_tests_cant": "Inductive invariant over histories.", "anchors": ["src/fstd98/xdf98.c: c_xdfput, add_dir_page, create_new_xdf"]}
{"id": "C25", "title": "Close then open restores the directory", "statement": "Closing a file and opening it again yields the same live records with the same keys and contents, and the checksum of every page verifies.", "quantifier": "every history of operations followed by close and open", "why_tests_cant": "All histories; checksum over arbitrary page contents.", "anchors": ["src/fstd98/xdf98.c: c_xdfcls, c_xdfopn"]}
{"id": "C26", "title": "A crash before close loses only the new records (append)", "statement": "If a process appending records dies at any point before c_xdfcls starts, opening the file gives exactly the records it had when it was opened.", "quantifier": "every history of appends, every crash point between disk writes", "why_tests_cant": "Every crash point of every history.", "anchors": ["src/fstd98/xdf98.c: c_xdfput, add_dir_page, c_xdfcls, c_xdfopn, c_qdfrstr"]}
{"id": "C27", "title": "A crash during close is detected or harmless", "statement": "If the process dies between two disk writes of c_xdfcls, the next open for writing either reports an error or sees a consistent directory.", "quantifier": "every history and every crash point inside close", "why_tests_cant": "Every crash point.", "anchors": ["src/fstd98/xdf98.c: c_xdfcls, c_xdfopn"]}
{"id": "C28", "title": "Write protection is respected", "statement": "No operation on a file opened for reading changes the file or its directory; an append-mode file accepts only new records.", "quantifier": "every operation and state", "why_tests_cant": "All operations in all states.", "anchors": ["src/fstd98/xdf98.c: c_xdfput, c_xdfdel, c_xdfcls"]}
{"id": "C29", "title": "Record buffer editing keeps the rest of the record", "statement": "c_xdfins then c_xdfcut at the same place restores the record; c_xdfrep changes only the addressed words; c_xdfxtr returns what c_xdfadd, c_xdfins or c_xdfrep stored.", "quantifier": "every record, position, element count and width", "why_tests_cant": "All positions and sizes.", "anchors": ["src/fstd98/xdf98.c: c_xdfadd, c_xdfins, c_xdfcut, c_xdfrep, c_xdfxtr"]}
{"id": "C30", "title": "Generic keys round-trip through the directory entry", "statement": "Keys written in a record by c_xdfini/c_xdfupd are those returned by c_xdfprm/c_xdfhdr, keys given as -1 are left unchanged and keys never overlap each other's bits.", "quantifier": "every key layout with disjoint bit ranges, every key value that fits", "why_tests_cant": "All layouts and values.", "anchors": ["src/fstd98/xdf98.c: build_gen_prim_keys, build_gen_info_keys, c_qdfput, c_xdfcle"]}
{"id": "C31", "title": "Linked files are searched as their concatenation", "statement": "After c_xdflnk, a search on the first file enumerates the matching records of all linked files in list order, and each handle gives access to the right record; c_xdfunl undoes it.", "quantifier": "every list of open files and directory contents", "why_tests_cant": "All lists and contents.", "anchors": ["src/fstd98/xdf98.c: c_xdflnk, c_xdfunl, next_match, c_xdfget2"]}
{"id": "C32", "title": "Copying a file keeps exactly its valid records", "statement": "c_xdfuse copies to the destination exactly the non deleted records of the source in file order, unchanged except for their address.", "quantifier": "every source file content", "why_tests_cant": "All file contents.", "anchors": ["src/fstd98/xdf98.c: c_xdfuse"]}
{"id": "C33", "title": "Restoring a damaged file keeps its registered content", "statement": "c_qdfrstr produces a file whose words up to the registered size equal those of the input with the write flag cleared, so it can be opened again.", "quantifier": "every input file", "why_tests_cant": "All contents and lengths, all chunk boundaries.", "anchors": ["src/fstd98/xdf98.c: c_qdfrstr"]}
{"id": "C34", "title": "Date stamps convert back and forth", "statement": "newdate conversions from a printable date to a stamp, a true date, an extended stamp, an extended true date or a date array and back return the same date; two dates have different stamps; every stamp that is accepted prints a date of the calendar; a printable date that is not in the calendar is refused.", "quantifier": "every valid date-time in the supported range", "why_tests_cant": "Hundreds of years of dates at 5 s resolution.", "anchors": ["src/base/moduledate.f90: newdate (naetwed), itdmag2, dmagtp2", "src/base/datec.f: datec", "src/base/jdatec.f: jdatec"]}
{"id": "C35", "title": "Date increments agree with elapsed time", "statement": "incdatr / incdati applied to the stamp of a date and the time elapsed to another date gives the stamp of the other date; difdatr / difdati of the two stamps gives the elapsed time; adding increments is associative; the run number of an old style stamp is kept.", "quantifier": "all stamps and increments in range", "why_tests_cant": "All pairs.", "anchors": ["src/base/moduledate.f90: incdat, difdat"]}
{"id": "C36", "title": "Sorting and permutation routines return a sorted permutation", "statement": "IPSORT (integer, real, double, character) ends and returns the permutation of 1..n that puts the keys in non-decreasing order, without touching the rest of the array; the CSORT entry points reorder the indices they are given the same way; SORT and ISORT put the first n elements in non-decreasing order as a permutation of what they were; PERMUT reverses the order of the rows and is its own inverse.", "quantifier": "every array, every length, every order of the keys", "why_tests_cant": "All arrays of all lengths.", "anchors": ["src/base/ipsort.c: csortr, csortd, csorte, csortc, ipsort, ipsort8, ipsorti, ipsortc", "src/base/sort.f: SORT", "src/base/isort.f: ISORT", "src/base/permut.f: PERMUT"]}
{"id": "C37", "title": "A record's parameters are the ones it was written with", "statement": "After a successful fstecr on a random standard file, fstprm on the record gives back dimensions, number of bits, data type, deet, npas, ip1-3, ig1-4, grtyp as given, typvar/nomvar/etiket blank filled and in upper case, the date of origin as given and the date of validity deet*npas seconds later; still so after any calls on any files (including closing and opening) that do not rewrite or delete the record. A file made by fstouv is a standard file whenever fstouv opens it again.", "quantifier": "every argument list fstecr accepts (in its stated domain), every reachable state, every later history that spares the record", "why_tests_cant": "All argument values and dates, all histories.", "anchors": ["src/fstd98/fstd98.c: c_fstecr, c_fstprm, crack_std_parms, c_fstouv", "src/fstd98/qstdir.h: stdf_dir_keys, stdfkeys"]}
{"id": "C38", "title": "Searches in standard files list exactly the records wanted", "statement": "fstinf followed by fstsui until nothing is found, or by fstinfx from the last handle, gives each record whose parameters (as fstprm gives them) meet the criteria and that the filter accepts, once, in directory order, with its dimensions; -1 and blanks are wildcards. fstinl gives the handles of the first nmax of them, and 0 or minus their number.", "quantifier": "every criterion, filter, reachable state and file content", "why_tests_cant": "All directories and all criteria.", "anchors": ["src/fstd98/fstd98.c: c_fstinf, c_fstinfx, c_fstsui, c_fstinl"]}
{"id": "C39", "title": "Writing a standard record adds or replaces one record and leaves the others", "statement": "After a successful fstecr, the new record is found by exactly the searches its parameters meet, and every other record is found by the same searches and reads the same as before; with rewrite, the first record with the same parameters (date apart) is the only one that disappears.", "quantifier": "every argument list, reachable state, search and other record in any open file", "why_tests_cant": "All file contents and criteria.", "anchors": ["src/fstd98/fstd98.c: c_fstecr, c_fstinf"]}
{"id": "C40", "title": "Reading a standard record gives back the field", "statement": "When no compression is asked for, fstluk gives back the field given to fstecr and its dimensions, touching nothing else in the caller's array, then and after any calls that spare the record: the same elements for data types 0 (transparent), 2 (unsigned) and 4 (signed) whose values fit in the number of bits asked for and for type 5 (IEEE, 32 bits); for types 1 and 6 (reals in fewer bits) numbers that differ from those given by at most the error of the packing.", "quantifier": "every field, size, number of bits, history", "why_tests_cant": "All contents, sizes and widths.", "anchors": ["src/fstd98/fstd98.c: c_fstecr, c_fstluk", "src/packers/compact_integer.c", "src/packers/float_packer.c", "src/packers/compact.tmplc"]}
{"id": "C41", "title": "Report blocks read back as added, through any sequence of edits", "statement": "After mrbini and any successful calls to mrbadd, mrbdel, mrbrep and mrbupd, in any order, the report contains exactly the blocks those calls should leave, in order: mrbprm gives the parameters of each (with the number of bits and the data type the packing rules choose), mrbxtr its element codes and values, missing values included, touching nothing else in the caller's arrays; mrbloc and mrblocx find the first block after a given one with the family and type asked for; the calls succeed when there is room, and a wrong block number is refused. Element codes and block types convert both ways.", "quantifier": "every header, sequence of edits, block dimensions, codes, values, search", "why_tests_cant": "All edit sequences and all contents; each deletion and replacement moves every following block.", "anchors": ["src/fstd98/burp98.c: c_mrbadd, c_mrbdel, c_mrbrep, c_mrbprm, c_mrbxtr, c_mrbloc", "src/burp98_f/mrbcov.F90", "src/burp98_f/mrbtyp.F90", "src/burp98_f/mrblocx.F90"]}
{"id": "C42", "title": "A report written to a file reads back with its blocks and header", "statement": "After a successful mrfput, mrfget of the record gives a report with the same blocks and the same header, immediately and after any later calls on any files that do not rewrite or delete that record or make the file anew, closing and opening included; no other record of any file changes.", "quantifier": "every report with less than 65536 blocks, file state, history", "why_tests_cant": "All histories and contents.", "anchors": ["src/fstd98/burp98.c: c_mrfput, c_mrfget", "src/fstd98/xdf98.c: c_xdfput, c_xdfget", "src/burp98_f/mrfopn.F90"]}
{"id": "C43", "title": "Report headers read back as given", "statement": "mrbhdr gives the header given to mrbini, with the changes made by mrbupd (-1 and asterisks leave values as they are), the station in capital letters and the date with or without the century; mrfprm gives the part of it kept in the file and the length of the record, after any history that spares the record.", "quantifier": "every header whose values fit their keys, dates 1900 to 2699, history", "why_tests_cant": "All key values and histories.", "anchors": ["src/burp98_f/mrbini.F90", "src/burp98_f/mrbupd.F90", "src/burp98_f/mrfprm.F90", "src/fstd98/burp98.c: c_mrbhdr"]}
{"id": "C44", "title": "mrfloc finds exactly the reports sought", "statement": "Successive calls to mrfloc, each from the handle the previous one gave, give each record that is not deleted and whose station (asterisks standing for any character), type, latitude, longitude, day and hour are those asked for (-1 standing for any) once, then fail; a report put in the file is among them exactly when its header meets the criteria, after any history that spares it.", "quantifier": "every criteria, file contents, history", "why_tests_cant": "All contents and criteria.", "anchors": ["src/burp98_f/mrfloc.F90", "src/fstd98/xdf98.c: c_xdfloc2", "src/fstd98/burp98.c: build_burp_prim_keys"]}
{"id": "C45", "title": "The table of elements answers what was put in it", "statement": "mrbtbl gives, for each element asked, at the first call and at all later ones, the scale and the reference that the table of elements and the user's additions by mrbsct hold for it, and the mark 1, or the mark 0 and an untouched cell when they hold none; the order of the elements in the file does not matter. A wrong number of cells or a missing table is refused and nothing changes.", "quantifier": "every table with distinct codes, every list of elements, every sequence of calls", "why_tests_cant": "The answer goes through a sort and a binary search; only all tables of all sizes and orders show that no element is lost.", "anchors": ["src/burp98_f/mrbcvt.F90: MRBSCT, MRBTBL", "src/burp98_f/qbrptri.F90", "src/burp98_f/bufrchr.F90"]}
{"id": "C46", "title": "Values converted to reals and back", "statement": "mrbcvt turns each code of a block into (code + reference) / scale, to single precision, and the code of which all bits are 1 into the value for missing data; converting the reals back gives the codes again when code + reference has at most 22 bits. Reals coded and decoded come back within half a unit of the scale and two roundings, missing ones missing, others never. Elements without description are left alone.", "quantifier": "every table, element list, code and finite real in range", "why_tests_cant": "Rounding errors of a division and a product must cancel in the nearest integer for all codes, references and scales.", "anchors": ["src/burp98_f/mrbcvt.F90: MRBCVT"]}
{"id": "C47", "title": "Reals packed in tokens of up to 16 bits", "statement": "c_float_packer followed by c_float_unpacker (data type 6) gives back the number of bits and as many numbers, each within 2^(1-bits) of the range of the field plus 2^-23 of its largest magnitude; a field of one repeated number comes back exactly; packing the unpacked numbers again changes nothing more. More than 16 bits or less than 1, another kind of data and another number of values are refused.", "quantifier": "every non-empty field of finite single precision numbers one of which is at least 2^-103 in magnitude (2^-101 for packing again), or none of which is denormal, or all zero; every number of bits 1..16; every lower and upper bound of the field", "why_tests_cant": "The error bound combines truncation of mantissas at a common exponent, a rounding shift, a clamp and a floating subtraction; only all fields, ranges and widths show that no combination exceeds it.", "anchors": ["src/packers/float_packer.c: c_float_packer, c_float_unpacker, float_packer, float_unpacker"]}
{"id": "C48", "title": "Reals packed in tokens of 1 to 32 bits", "statement": "compact_float packing then unpacking (data type 1) gives back, for each value that is not missing, a number within 2*(max-min)/(2^bits - 1 if values can be missing) of it plus 2^-23 of the largest magnitude plus 2^-126; missing values come back as the tag; a smaller value never comes back larger than a larger one; the smallest value comes back exactly unless it is subnormal; only the header and the bits of the tokens change. No bits, one bit with missing values, too many values and values above 10^38 are refused.", "quantifier": "every field of single precision numbers within 10^38 with at least one that is not missing; every tag; every width 1..32 (2..32 with missing values), stride, position of header and tokens, former content of the memory, lower and upper bound of the field", "why_tests_cant": "The bound combines five roundings in double precision, the choice of an exponent, the truncation of tokens and a header that keeps part of the minimum, over all exponents and widths; an error of one unit appears only for particular combinations.", "anchors": ["src/packers/compact.tmplc: FLOAT_PACK, FLOAT_UNPACK", "src/packers/compact.c: compact_float", "src/packers/include/bitPacking.h"]}
{"id": "C49", "title": "Reading a compressed standard record gives back the field", "statement": "For data types 129 (compressed reals) and 130 (compressed integers) in at most 16 bits, fstluk gives back the field given to fstecr, then and after any calls that spare the record: the same integers, or reals within the error of the packing.", "quantifier": "every field, size, number of bits, whether it could be compressed, history", "why_tests_cant": "Whether the compressor succeeds depends on all the values, and each outcome stores the data in another place and form.", "anchors": ["src/fstd98/fstd98.c: c_fstecr, c_fstluk", "src/compresseur/armn_compress.c", "src/packers/compact.tmplc"]}
{"id": "C50", "title": "A level comes back from its code", "statement": "CONVIP_plus with mode 2 (or 1 once mode 0 was called) gives every level of a kind in use (0 to 7, 10, 17, 21, with the range of values of the kind) a code from 0 to 2^28-1, and mode -1 on that code gives the same kind and a number within 0.0000053 of it in proportion (0.00011 for negative numbers and indices) plus 1e-11, or the smallest value of the kind for numbers within 0.12% of it; integers up to 2000000 of kind 15 come back exactly. Neither call changes its inputs.", "quantifier": "every kind in use and every single precision number of its range (negative ones at most -1e-11, indices at most 480000000); every former content of the output arguments", "why_tests_cant": "The scaling multiplies or divides by ten up to ten times in double precision before one rounding to five digits; the number of turns and the rounding depend on the bits of the number, over all the powers of ten.", "anchors": ["src/fstd98/convip_plus.f90: CONVIP_plus, conv_kind_15"]}
{"id": "C51", "title": "A level read back from its code keeps its value", "statement": "Encoding the level decoded from a code, and decoding again, gives exactly the same number of the same kind.", "quantifier": "every level of every kind in use", "why_tests_cant": "A drift would need a number whose decoded value rounds, in decimal and in binary, to a neighbour; such numbers are rare and near powers of ten.", "anchors": ["src/fstd98/convip_plus.f90: CONVIP_plus"]}
{"id": "C52", "title": "Levels keep their order", "statement": "Of two levels of the same kind, the one that is not larger does not come back larger.", "quantifier": "every pair of levels of the same kind", "why_tests_cant": "Neighbouring numbers may take different exponents; an inversion could occur only where the scaling ends differently.", "anchors": ["src/fstd98/convip_plus.f90: CONVIP_plus"]}
{"id": "C53", "title": "Old codes of levels", "statement": "With mode 3 (or 1 before mode 0 was called) heights of 0..99995 m come back within 2.53 m, sigma levels within 0.000053, pressures of 10..1099.4 mb and arbitrary codes of 0..100 within a half, and lower pressures within 2.6% of the first value of their decade; and the level of every old code (but 1 to 9 and the first 19 of each decade of low pressures) has that code.", "quantifier": "every single precision number of these ranges; every code of 0..32000 but those named", "why_tests_cant": "Three kinds share one range of integers with thresholds in single precision; only particular numbers fall on the wrong side.", "anchors": ["src/fstd98/convip_plus.f90: CONVIP_plus"]}
{"id": "C54", "title": "EncodeIp and DecodeIp keep level, time, layer and period", "statement": "EncodeIp of a level of the atmosphere (kinds 0 to 6), a time and a third value of another kind, followed by DecodeIp on the three integers, gives the same kinds and numbers as close as C50 says, with status OK (or GOOD_GUESS for 0 mb); of a layer and a time, the layer with the lower level first as its kind orders them (heights ascending, sigma and pressure descending, others as given) and no third value; of a level and a period, the period with the earlier time first and no third value; what the third argument holds does not matter when there is a range. Anything but a level and a time, two ranges, or a third value of a negative kind is refused with -1, -1, -1 and DecodeIp refuses negative integers.", "quantifier": "every kind 0..6, every pair of levels (other than 0 mb in a layer), every time or pair of times, every third value", "why_tests_cant": "The order of two ends is decided before coding and again after decoding, on numbers that coding changes; a wrong swap appears only when both ends round to neighbouring codes.", "anchors": ["src/fstd98/convert_ip123.f90: encode_ip_0, decode_ip_0, is_level, ascending, descending, is_invalid_kind"]}
{"id": "C55", "title": "ConvertPKtoIP and ConvertIPtoPK keep levels and times", "statement": "ConvertPKtoIP then ConvertIPtoPK give back a level, a time and a third value of another kind; two levels with a time, given in the first and third or in the first and second place, come back in the first and third, the lower first, with the time in the second; two times come back in the second and third place, the later first. Each number is as close as C50 says, and two levels in the first two places are signalled with WARNING when encoding.", "quantifier": "every kind of level (0 to 7, 21), every level (other than 0 mb in a layer), every time, every third value", "why_tests_cant": "As for C54.", "anchors": ["src/fstd98/convert_ip123.f90: encode_ip_2, decode_ip_2"]}
{"id": "C56", "title": "Record selection gives the verdict of the sets of criteria", "statement": "After any history of calls that succeed (turning filters off and on, choosing a group of sets, starting a set that wants or rejects records, adding criteria on names, labels, types, dates, levels, times and supplementary parameters, forgetting a set while keeping some criteria, starting over), a record gets the verdict of the sets as they were described: the first set of the group whose criteria it all satisfies decides, with its number plus 1 or a refusal; without one the record passes when no set in use wants records. Names match by their start; an interval of dates is closed; 'every h hours' counts from the first date; the list -1 accepts everything. Asking changes no later answer, and nothing else gets through.", "quantifier": "every history of accepted calls and every record; the criteria exclude open intervals of levels, ig4 and intervals from or to extended dates, for which the code is wrong (c57_open_refuted, c57_ig4_refuted, c57_extended_refuted), and the dates 5 seconds after a step", "why_tests_cant": "The verdict depends on the whole history of up to 50 sets of up to 50 values each and on every record of a file.", "anchors": ["src/fstd98/excdes_new.c: C_requetes_init, C_requetes_reset, Xc_Select_*, C_filtre_desire, C_filtre_exclure, C_select_groupset, C_fstmatch_parm, C_fst_match_req"]}
{"id": "C57", "title": "A criterion on levels accepts what is within a millionth", "statement": "A list of levels accepts a record whose level is of the same kind and within 9 ten millionths of a listed level other than 0, whatever the coding of the two, and refuses one that is further than 11 ten millionths unless the codes are equal.", "quantifier": "every pair of codes of levels", "why_tests_cant": "The test divides two single precision numbers and compares in double precision: the boundary depends on roundings for each of the 2^32 codes.", "anchors": ["src/fstd98/excdes_new.c: match_ip"]}
{"id": "C58", "title": "Criteria are accepted, or refused without touching the other sets", "statement": "A criterion of 1 to 50 values for a set from 0 to 49 is accepted when the set is not in use or in use with the same mode, and refused with -1 when the set is in use with the other mode. A refused call leaves the other sets, the group, the current set and the switch.", "quantifier": "every history of accepted calls, every set, mode and criterion", "why_tests_cant": "Whether a set is in use and with which mode depends on the whole history.", "anchors": ["src/fstd98/excdes_new.c: ValidateRequestForSet, Xc_Select_*"]}
{"id": "C59", "title": "Erasing a record removes that record, and the count of records is exact", "statement": "Erasing by handle succeeds exactly when the file is a standard file that may be modified and searches give the record. Then every search gives the same records in the same order without this one, the other records of all files keep their parameters and data, and the record is not found again after any calls, closing and opening included, nor can it be erased twice; a refused call has a negative code and changes nothing. The count of valid records of a file is always the number of records that an unrestricted search gives.", "quantifier": "every history of creating, opening, writing, deleting, editing, searching, checkpointing and closing, every record of every file, every search", "why_tests_cant": "The histories are unbounded, and whether an erased record comes back depends on pages rewritten, reread and reused later.", "anchors": ["src/fstd98/fstd98.c: c_fsteff", "src/fstd98/fstd98.c: c_fstnbrv", "src/fstd98/xdf98.c: c_xdfdel"]}
{"id": "C60", "title": "Editing the parameters of a record changes what was asked and nothing else", "statement": "Editing by handle a record that searches give, in a standard file that may be written, replaces each parameter given (a number other than -1, a text that is not blank) and keeps the others; the record is described so after any later calls that leave it alone, closing and opening included. Its data read as before. Searches give it by its new parameters, and all the other records as before; these keep their parameters and data. Searching and writing work after edits as before them.", "quantifier": "every history of calls, every record, every combination of parameters within their ranges, every search", "why_tests_cant": "The parameters share bit fields of 16 directory words, texts are packed, the date is recoded: each combination of values kept and replaced has to be right, after any history.", "anchors": ["src/fstd98/fstd98.c: c_fst_edit_dir_plus", "src/fstd98/fstd98.c: c_fstprm", "src/fstd98/fstd98.c: c_fstinfx"]}
{"id": "C61", "title": "A search with lists of levels gives the first record whose levels are listed", "statement": "After ip1_all, ip2_all, ip3_all (or the _val functions) were given levels, a search with the codes they returned gives the first record, in the order of the file, that conforms to the other criteria and whose ip1, ip2 and ip3 each stand for a level listed, in either encoding and up to one unit of the last digit of the finer code; or says that there is none. The lists are forgotten, the records and what other searches give are unchanged.", "quantifier": "every history of calls, every content of the file, every list and every search whose ip1 is listed", "why_tests_cant": "Levels have two encodings and many codes per value; the loop restarts the search from each record it rejects and retargets the file at the end, so its result depends on all the records before.", "anchors": ["src/fstd98/fstd98.c: c_ip1_all", "src/fstd98/fstd98.c: c_ip1_val", "src/fstd98/fstd98.c: ip_is_equal", "src/fstd98/fstd98.c: c_fstinfx"]}
{"id": "C62", "title": "MD5 digests and HMACs do not depend on the pieces and are those of the RFCs", "statement": "The digest of a message given to md5_update in any pieces is that of RFC 1321 for the whole message, whatever the context held before md5_starts; the HMAC of a text given in any pieces is that of RFC 2104, for keys of any length.", "quantifier": "every message, every way to cut it in pieces below 2^31 bytes, every key, any total length", "why_tests_cant": "The buffer, the carry between the two counters and the padding depend on the lengths of all the pieces; words of 64 bits carry garbage above bit 31.", "anchors": ["src/primitives/md5.c: md5_update", "src/primitives/md5.c: md5_finish", "src/primitives/md5.c: md5_process", "src/primitives/md5.c: md5_hmac_starts", "src/primitives/md5.c: md5_hmac_finish"]}
{"id": "C63", "title": "ARC4 enciphers with the published stream and deciphers what it enciphered", "statement": "After arc4_setup with a key, arc4_crypt on buffers of any sizes combines them with the stream of the published algorithm for that key, from byte 1024 on; setting up the same key again and calling arc4_crypt on the result, cut in any other way, gives the message back.", "quantifier": "every non-empty key, every message, every two ways to cut it in buffers", "why_tests_cant": "Each byte of the stream depends on all the swaps before it; the state goes from one buffer to the next.", "anchors": ["src/primitives/arc4.c: arc4_setup", "src/primitives/arc4.c: arc4_crypt"]}
{"id": "C64", "title": "Cyclic checks are the published ones, in any pieces and on any machine, and see every wrong byte", "statement": "update_crc_ne with 16, 24 or 32 bits gives the published check (CRC-16, CRC-24 of RFC 4880, CRC-32 of RFC 1952) of the data, given in any number of calls (mode 0, then 1, then 2) with words of 1, 2, 4 or 8 bytes; the result depends on the values of the words and not on the order of bytes in the machine; two data that differ in one byte get different results. calc_crc gives the CCITT check, from the seed, of every stride-th byte.", "quantifier": "every message, every way to cut it in calls and in words, both orders of bytes, every old value, every seed and stride above 0", "why_tests_cant": "The result depends on every entry of four tables of 256 numbers and on the index of each byte in each word; that all wrong bytes are seen is a claim on all pairs of messages.", "anchors": ["src/primitives/crc_16_24_32.c: update_crc_ne", "src/primitives/crc16_.c: crc16_update_le", "src/primitives/crc24_.c: crc24_update_le", "src/primitives/crc32_.c: crc32_update_le", "src/primitives/calc_crc.c: calc_crc"]}
