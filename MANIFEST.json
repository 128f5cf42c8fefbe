{
 "claims": [
  {
   "property": "C01",
   "status": "proved",
   "theorems": [
    "c01_unsigned_roundtrip",
    "c01_unsigned_auto"
   ],
   "note": "all widths 1..32, offsets, strides, counts, any shift oracle; strict bound off+n*b < 32*length because of the over-read of C06"
  },
  {
   "property": "C02",
   "status": "proved",
   "theorems": [
    "c02_signed_roundtrip",
    "c02_signed_auto"
   ],
   "note": "fixed width for all values; automatic width excludes INT_MIN (abs(INT_MIN))"
  },
  {
   "property": "C03",
   "status": "proved",
   "theorems": [
    "c03_pack_frame"
   ],
   "note": "frame and exact image, signed and unsigned"
  },
  {
   "property": "C04",
   "status": "proved",
   "theorems": [
    "c04_unsigned_modulo"
   ],
   "note": ""
  },
  {
   "property": "C05",
   "status": "partial",
   "theorems": [
    "c05_header_fixed",
    "c05_header_auto_partial",
    "c05_header_auto_constant_refuted",
    "c05_header_auto_wide_refuted"
   ],
   "note": "fixed width fully proved; automatic width proved except constant arrays and ranges >= 2^31 at an unaligned offset, for which the code is wrong (refutations)"
  },
  {
   "property": "C06",
   "status": "partial",
   "theorems": [
    "c06_unpack_value",
    "c06_footprint_refuted"
   ],
   "note": "values depend on the requested bits only; the footprint claim itself is false of the code: one word past the end is read when the last bit requested ends the array"
  },
  {
   "property": "C07",
   "status": "partial",
   "theorems": [
    "c07_short_roundtrip",
    "c07_char_roundtrip",
    "c07_short_header_refuted",
    "c07_char_header_refuted"
   ],
   "note": "proved without header; header mode is wrong in the code (minimum not subtracted)"
  },
  {
   "property": "C08",
   "status": "partial",
   "theorems": [
    "c08_rle_roundtrip_partial",
    "c08_rle_pending_refuted"
   ],
   "note": "round trip proved when the array does not end with a run followed by a single different element; that case is wrong in the code (pending repeats dropped)"
  },
  {
   "property": "C09",
   "status": "partial",
   "theorems": [
    "c08_rle_roundtrip_partial",
    "c09_rle_overflow_refuted"
   ],
   "note": "no token leaves its width when at least two codes remain above the range; refuted with one remaining code"
  },
  {
   "property": "C10",
   "status": "proved",
   "theorems": [
    "c10_minimum_lossless",
    "c10_planes_refuted"
   ],
   "note": "For the ni x nj plane (nk general). For nk>1 later planes are lost: c10_planes_refuted."
  },
  {
   "property": "C11",
   "status": "proved",
   "theorems": [
    "c11_parallelogram_lossless"
   ],
   "note": "For the ni x nj plane (nk general)."
  },
  {
   "property": "C12",
   "status": "proved",
   "theorems": [
    "c12_failure_unchanged"
   ],
   "note": "All dimensions, nbits, levels and byte orders for which the call has defined behaviour."
  },
  {
   "property": "C13",
   "status": "proved",
   "theorems": [
    "c13_length",
    "c13_uncompress_overflow_refuted"
   ],
   "note": "Decompression writes one word more than the field when ni*nj is even: c13_uncompress_overflow_refuted."
  },
  {
   "property": "C14",
   "status": "proved",
   "theorems": [
    "c14_float_truncation",
    "c14_float_lossless",
    "c14_writer_buffer_overflow_refuted"
   ],
   "note": "znbits 10..32, zstream of 2 words per point; the record writer provides less (refutation)"
  },
  {
   "property": "C15",
   "status": "proved",
   "theorems": [
    "c15_bit_runs_roundtrip",
    "c15_overread_refuted"
   ],
   "note": "every 0/1 sequence; the packer reads one cell past the sequence (refutation)"
  },
  {
   "property": "C16",
   "status": "proved",
   "theorems": [
    "c16_mask_roundtrip"
   ],
   "note": ""
  },
  {
   "property": "C17",
   "status": "partial",
   "theorems": [
    "c17_unsigned_partial",
    "c17_signed_partial",
    "c17_short_partial",
    "c17_first_element_refuted",
    "c17_short_refuted",
    "c17_next_code_is_missing_refuted",
    "c17_negative_constant_refuted"
   ],
   "note": "every element but a missing element 0, unsigned and 32-bit signed; signed 16/8 bits only below -1: the code violates the rest (refutations)"
  },
  {
   "property": "C18",
   "status": "proved",
   "theorems": [
    "c18_integers_unaltered",
    "c18_floats_unaltered",
    "c18_other_types_unaltered"
   ],
   "note": ""
  },
  {
   "property": "C19",
   "status": "partial",
   "theorems": [
    "c19_handle_decodes_partial",
    "c19_handle_unique",
    "c19_handle_nonzero",
    "c19_sequential_handle",
    "c19_sequential_old_handle",
    "c19_sequential_unique",
    "c19_after_sequential_refuted",
    "c19_many_pages_refuted"
   ],
   "note": "Within the limits the code enforces; refuted when a sequential file has been opened while random files sit in slots >= 128, and past 4096 linked pages."
  },
  {
   "property": "C20",
   "status": "proved",
   "theorems": [
    "c20_put_then_read",
    "c20_keys",
    "c20_other_records"
   ],
   "note": "Random files, any number of open files, every history of create/open/put/delete/search/checkpoint/close; record and keys (standard key functions) read back until deleted, rewritten or the file recreated. Sequential files not modelled."
  },
  {
   "property": "C21",
   "status": "partial",
   "theorems": [
    "c21_search_by_handle",
    "c21_search_next",
    "c21_next_after_put_refuted",
    "c21_generic",
    "c21_generic_unspanned_refuted",
    "c44_scan"
   ],
   "note": "Proved for the three kinds of keys of the library (standard, generic, report), for any caller filter, by explicit handle and with -1; not so, because the code is wrong: continuing with -1 after a put on the same file, and generic keys that leave key words unused (refutations)."
  },
  {
   "property": "C22",
   "status": "proved",
   "theorems": [
    "c22_deleted_for_good",
    "c22_local",
    "c22_failure",
    "c22_generic"
   ],
   "note": "Through every later history that does not recreate the file. Handles one past the last entry of a page are excluded (ok_op): the library reads an uninitialised entry there."
  },
  {
   "property": "C23",
   "status": "proved",
   "theorems": [
    "c23_statistics"
   ],
   "note": "Open files."
  },
  {
   "property": "C24",
   "status": "proved",
   "theorems": [
    "c24_disjoint"
   ],
   "note": "Deleted records included."
  },
  {
   "property": "C25",
   "status": "proved",
   "theorems": [
    "c25_close_open"
   ],
   "note": "Any mode of opening; same entries, keys, contents and checksums."
  },
  {
   "property": "C26",
   "status": "proved",
   "theorems": [
    "c26_crash_before_close"
   ],
   "note": "Torn last write included. Also for other modes as long as no record is rewritten in place."
  },
  {
   "property": "C27",
   "status": "proved",
   "theorems": [
    "c27_crash_in_close"
   ],
   "note": "Torn page writes included; a header write (one write call) is taken as atomic."
  },
  {
   "property": "C28",
   "status": "proved",
   "theorems": [
    "c28_read_only",
    "c28_refused",
    "c28_append"
   ],
   "note": ""
  },
  {
   "property": "C29",
   "status": "proved",
   "theorems": [
    "c29_add_then_xtr",
    "c29_rep_then_xtr",
    "c29_ins_then_xtr",
    "c29_cut",
    "c29_ins_then_cut",
    "c29_datyp3_cut_refuted",
    "c29_datyp3_never_cut",
    "c29_rejected_call_refuted",
    "c29_add_overflow_refuted"
   ],
   "note": "For every buffer, position, element count, width and accepted data type with enough room. Exceptions of the code are proved as refutations: type 3 cannot be cut or replaced, a rejected call has already changed the record, the space test allows an overflow."
  },
  {
   "property": "C30",
   "status": "proved",
   "theorems": [
    "c30_ini_then_hdr",
    "c30_upd_then_hdr",
    "c30_ini_put_prm"
   ],
   "note": "For files with generic keys whose descriptors fit and do not overlap; at most 32 keys (the library's own bound in c_xdfput)."
  },
  {
   "property": "C31",
   "status": "proved",
   "theorems": [
    "c31_search",
    "c31_links",
    "c31_access",
    "c31_found",
    "c31_unlink",
    "c31_by_handle_refuted",
    "c31_from_handle_refuted",
    "c31_delete_refuted"
   ],
   "note": "Standard key functions; files with entries of the same length; at most 4096 directory pages in all. Continuing by handle, starting from a handle of a linked page and deleting through a linked handle are refuted."
  },
  {
   "property": "C32",
   "status": "proved",
   "theorems": [
    "c32_copy",
    "c32_read",
    "c32_ends",
    "c32_error",
    "c32_order",
    "c32_open_source_refuted",
    "c32_leftovers_refuted"
   ],
   "note": "Random files, option NSPLIT 1. For every reachable state, source closed or open for reading, destination open, closed or absent: the copies are exactly the valid records in file order, appended to the destination's directory, words unchanged but for the address. Premises: the source file is as long as its header says (c32_leftovers_refuted shows what happens otherwise), it is not open for writing (c32_open_source_refuted), the destination has fewer than 1024 directory pages afterwards (c_xdfuse ignores the error of c_xdfput)."
  },
  {
   "property": "C33",
   "status": "proved",
   "theorems": [
    "c33_words",
    "c33_after_checkpoint",
    "c33_interrupted_close",
    "c33_early_refuted",
    "c33_cut_refuted"
   ],
   "note": "Words, and opening after a crash that follows a checkpoint or the last page of a close. Refuted for a close interrupted earlier (header ahead of the directory) and for a file shorter than its registered size (zeros, no error)."
  },
  {
   "property": "C34",
   "status": "proved",
   "theorems": [
    "c34_calendar",
    "c34_print_stamp_print",
    "c34_stamp_injective",
    "c34_stamp_prints_a_date",
    "c34_not_a_date",
    "c34_true_date",
    "c34_true_date_back",
    "c34_run_number",
    "c34_extended",
    "c34_array",
    "c34_minutes_before_1980_refuted",
    "c34_bad_minutes_refuted",
    "c34_oddity_refuted",
    "c34_bad_stamp_refuted",
    "c34_year_10000_refuted",
    "c34_array_year_refuted"
   ],
   "note": "All modes of newdate with the gregorian calendar. The refuted theorems show where the code loses information or accepts a date that does not exist; the other theorems exclude exactly these cases."
  },
  {
   "property": "C35",
   "status": "proved",
   "theorems": [
    "c35_hours",
    "c35_steps",
    "c35_associative",
    "c35_associative_steps",
    "c35_run_number",
    "c35_half_hour_refuted",
    "c35_last_minute_refuted",
    "c35_oddity_refuted"
   ],
   "note": "Gregorian calendar; the increment is an exact number of 5 second steps (floating point of nhours is not modelled). The 365 and 360 day calendars are not modelled."
  },
  {
   "property": "C36",
   "status": "proved",
   "theorems": [
    "c36_csort",
    "c36_ipsort",
    "c36_orders",
    "c36_nan_refuted",
    "c36_heapsort",
    "c36_permut"
   ],
   "note": "The order is a parameter; c36_orders gives the integer, string and real orders. Reals must be numbers: c36_nan_refuted shows an array with a NaN whose numbers are left out of order."
  },
  {
   "property": "C37",
   "status": "proved",
   "theorems": [
    "c37_standard",
    "c37_params",
    "c37_any_date_refuted"
   ],
   "note": "Random files, data types 0, 2, 4; dates whose last digit is 8 or 9 are shown not to be kept. Non-vacuity: fst_demo, fst_demo2."
  },
  {
   "property": "C38",
   "status": "proved",
   "theorems": [
    "c38_search",
    "c38_unique",
    "c38_label",
    "c38_list",
    "c38_date_refuted"
   ],
   "note": "Default ip flags. Dates compare up to their last digit; the refuted theorem shows that this is observable. fstinl for nmax >= 1."
  },
  {
   "property": "C39",
   "status": "proved",
   "theorems": [
    "c39_found",
    "c39_others",
    "c39_reach"
   ],
   "note": "Random files, data types 0, 2, 4."
  },
  {
   "property": "C40",
   "status": "proved",
   "theorems": [
    "c40_field"
   ],
   "note": "Data types 0, 1, 2, 4, 5 (32 bits) and 6, no missing values, no compression, random files."
  },
  {
   "property": "C41",
   "status": "proved",
   "theorems": [
    "c41_shows",
    "c41_ini",
    "c41_add",
    "c41_del",
    "c41_rep",
    "c41_number_refused",
    "c41_search",
    "c41_searchx",
    "c41_codes",
    "c41_refused_add_refuted",
    "c41_characters_refuted",
    "c41_transparent_refuted",
    "c41_long_code_refuted"
   ],
   "note": "data types 2 to 9 (3 cannot be deleted or replaced: refuted), stride 1; refuted: an add that is refused leaves its header behind, transparent data are repacked, codes with YYY above 255 collide"
  },
  {
   "property": "C42",
   "status": "proved",
   "theorems": [
    "c42_files",
    "c42_put_get"
   ],
   "note": "for files whose keys are those mrfopn creates (c42_files)"
  },
  {
   "property": "C43",
   "status": "proved",
   "theorems": [
    "c43_header",
    "c43_params"
   ],
   "note": ""
  },
  {
   "property": "C44",
   "status": "proved",
   "theorems": [
    "c44_scan",
    "c44_found"
   ],
   "note": ""
  },
  {
   "property": "C45",
   "status": "partial",
   "theorems": [
    "c45_sort",
    "c45_search",
    "c45_table",
    "c45_added",
    "c45_refused",
    "c45_added_refuted"
   ],
   "note": "Additions by mrbsct are proved kept when their codes are above those of the table; the code puts them at the end without sorting again, so other additions lose elements (c45_added_refuted)."
  },
  {
   "property": "C46",
   "status": "proved",
   "theorems": [
    "c46_decode",
    "c46_round_trip",
    "c46_error",
    "c46_decode_twice_refuted",
    "c46_long_code_refuted"
   ],
   "note": "Scales between 2^-60 and 2^60, references of 30 bits; 10.0 ** k is a parameter in that range. Longer codes (c46_long_code_refuted) and decoding the same array twice (c46_decode_twice_refuted) do not keep the values."
  },
  {
   "property": "C47",
   "status": "proved",
   "theorems": [
    "c47_error",
    "c47_constant",
    "c47_stable",
    "c47_refused",
    "c47_reads_past_refuted",
    "c47_tiny_refuted"
   ],
   "note": "Bounds on the size of the numbers are needed because zeros and denormals are mishandled below 2^-103 (c47_tiny_refuted); the word after the data must be readable (c47_reads_past_refuted)."
  },
  {
   "property": "C48",
   "status": "proved",
   "theorems": [
    "c48_error",
    "c48_order",
    "c48_minimum",
    "c48_frame",
    "c48_refused",
    "c48_tiny_refuted",
    "c48_all_missing_refuted"
   ],
   "note": "compact_float with tokens of at most 32 bits. The minimum is exact unless subnormal, and fields where all values are missing cannot be packed: both limits are shown by the refuted theorems."
  },
  {
   "property": "C49",
   "status": "partial",
   "theorems": [
    "c49_compressed_partial",
    "c49_fallback_refuted",
    "c49_sign_refuted",
    "c49_levels_refuted",
    "c49_bits_refuted"
   ],
   "note": "Proved for one level, 16 bits for reals, integers below 2^15 or fewer bits, when the compressor succeeds or the type is real. The refuted theorems show that the code misreads the others."
  },
  {
   "property": "C50",
   "status": "proved",
   "theorems": [
    "c50_accuracy",
    "c50_integers",
    "c50_tiny_refuted",
    "c50_index_refuted",
    "c50_kind_refuted"
   ],
   "note": "The statement names the ranges; what happens to negative numbers nearer to 0 than 1e-11, to indices above 480000000 and to kinds without a meaning is shown by the refutations."
  },
  {
   "property": "C51",
   "status": "proved",
   "theorems": [
    "c51_again",
    "c51_code_refuted"
   ],
   "note": "The number is kept; the code itself may change (c51_code_refuted)."
  },
  {
   "property": "C52",
   "status": "proved",
   "theorems": [
    "c52_order"
   ],
   "note": "All pairs of levels."
  },
  {
   "property": "C53",
   "status": "proved",
   "theorems": [
    "c53_accuracy",
    "c53_codes",
    "c53_pressure_refuted",
    "c53_codes_refuted"
   ],
   "note": "The statement names the ranges; the refutations show what happens outside."
  },
  {
   "property": "C54",
   "status": "proved",
   "theorems": [
    "c54_plain",
    "c54_levels",
    "c54_times",
    "c54_refused",
    "c54_decode_refused",
    "c54_depth_refuted",
    "c54_top_refuted",
    "c54_old_refuted",
    "c54_third_refuted"
   ],
   "note": "Uninitialised variables are undefined behaviour in the model; the refutations show what is outside the statement: kinds 7 and 21, layers that end at 0 mb, old codes, third values in hours."
  },
  {
   "property": "C55",
   "status": "proved",
   "theorems": [
    "c55_plain",
    "c55_levels",
    "c55_levels_first",
    "c55_times",
    "c55_top_refuted"
   ],
   "note": "A layer that ends at 0 mb is shown by the refutation."
  },
  {
   "property": "C56",
   "status": "proved",
   "theorems": [
    "c56_verdict",
    "c56_asking",
    "c56_no_record"
   ],
   "note": "ExcdesSpec.v states the sets and the verdict; fair lists the criteria covered: open intervals of levels, ig4 and intervals with extended dates are excluded because the code is wrong there (c57_open_refuted, c57_ig4_refuted, c57_extended_refuted), and clear_of excludes dates 5 seconds after a step."
  },
  {
   "property": "C57",
   "status": "proved",
   "theorems": [
    "c57_near",
    "c57_taken",
    "c57_open_refuted",
    "c57_ig4_refuted",
    "c57_extended_refuted",
    "c57_zero_refuted"
   ],
   "note": "same_value is what c56_verdict uses for levels in a list. Level 0 in two codes is not matched (c57_zero_refuted)."
  },
  {
   "property": "C58",
   "status": "proved",
   "theorems": [
    "c58_accepts",
    "c58_refuses",
    "c58_refused",
    "c58_refused_refuted",
    "c58_bad_dates_refuted"
   ],
   "note": "A refused call keeps the other sets but not the dates of its own set (c58_refused_refuted); a refused list of dates leaves a set in use without criteria (c58_bad_dates_refuted)."
  },
  {
   "property": "C59",
   "status": "proved",
   "theorems": [
    "c59_code",
    "c59_erased",
    "c59_gone",
    "c59_count"
   ],
   "note": "Histories are those of C20 with edits added. A file open in append mode refuses (as c_xdfdel does). Example: eff_demo, eff_demo2."
  },
  {
   "property": "C60",
   "status": "proved",
   "theorems": [
    "c60_edit",
    "c60_data",
    "c60_search",
    "c60_write",
    "c60_date_refuted",
    "c60_readonly_refuted",
    "c60_handle_refuted"
   ],
   "note": "For parameters within the ranges that fstecr accepts (edit_ok), deet * npas below 2^31 after the edit, a file that may be written, and a record that searches give. The date given is the date of validity (c60_date_refuted). A file open for reading accepts edits and loses them (c60_readonly_refuted); some invalid handles are not refused (c60_handle_refuted). Examples: eff_demo, edit_demo."
  },
  {
   "property": "C61",
   "status": "proved",
   "theorems": [
    "c61_match",
    "c61_first",
    "c61_all",
    "c61_val",
    "c61_next_refuted",
    "c61_ip2_refuted",
    "c61_overflow_refuted"
   ],
   "note": "For searches from the start of a file with a list for ip1 in use (a list for ip3 alone with ip1 is not consulted: c61_ip2_refuted shows the case of ip2 alone) and codes of one kind whose exponents differ by at most 12 (beyond, 64 bits overflow: c61_overflow_refuted). Continuing with fstsui gives only records with the codes of the first (c61_next_refuted). Examples: ips_demo, ips_demo2."
  },
  {
   "property": "C62",
   "status": "proved",
   "theorems": [
    "c62_pieces",
    "c62_md5",
    "c62_hmac"
   ],
   "note": "For bytes, a buffer of 64 bytes with any content, pieces and keys below 2^31 bytes. Specification in Md5Spec.v. Examples: md5_demo, md5_demo_ok."
  },
  {
   "property": "C63",
   "status": "proved",
   "theorems": [
    "c63_stream",
    "c63_back"
   ],
   "note": "For non-empty keys; the stack buffer of arc4_setup holds any bytes. Specification in Arc4Spec.v. Examples: arc4_demo, stream_demo."
  },
  {
   "property": "C64",
   "status": "proved",
   "theorems": [
    "c64_call",
    "c64_pieces",
    "c64_detect",
    "c64_ccitt",
    "c64_size_refuted"
   ],
   "note": "c64_size_refuted: words of 3 bytes, outside of the claim, make the code read outside of the data."
  }
 ]
}
