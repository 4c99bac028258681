{
 "claims": [
  {
   "property": "C01",
   "status": "proved",
   "theorems": [
    "C01_calls_total",
    "C01_blocks_in_heap",
    "C01_blocks_disjoint",
    "C01_result_is_fresh",
    "C01_live_free_disjoint",
    "C01_result_big_enough"
   ],
   "note": "For every heap, pointer size and history of a correct client, including nested contexts; also shows no undefined access and no endless walk."
  },
  {
   "property": "C02",
   "status": "proved",
   "theorems": [
    "C02_other_blocks_untouched",
    "C02_outside_untouched"
   ],
   "note": ""
  },
  {
   "property": "C03",
   "status": "proved",
   "theorems": [
    "C03_available_exact",
    "C03_outermost_heap",
    "C03_alloc_accounting",
    "C03_free_accounting"
   ],
   "note": ""
  },
  {
   "property": "C04",
   "status": "proved",
   "theorems": [
    "C04_free_list_coalesced",
    "C04_all_freed_is_one_block",
    "C04_all_freed_big_request"
   ],
   "note": ""
  },
  {
   "property": "C05",
   "status": "proved",
   "theorems": [
    "C05_first_fit"
   ],
   "note": "Both directions, with the first-fit choice."
  },
  {
   "property": "C06",
   "status": "proved",
   "theorems": [
    "C06_alloc_zeroed"
   ],
   "note": ""
  },
  {
   "property": "C07",
   "status": "proved",
   "theorems": [
    "C07_realloc"
   ],
   "note": "Frame for other blocks is C02."
  },
  {
   "property": "C08",
   "status": "proved",
   "theorems": [
    "C08_truncate"
   ],
   "note": "Frame for other blocks is C02."
  },
  {
   "property": "C09",
   "status": "proved",
   "theorems": [
    "C09_huge_request_refuted",
    "C09_huge_zeroing_refuted",
    "C09_truncate_refuted"
   ],
   "note": "Refuted by the code; the guarded form is C01_result_big_enough with the limit req_ok."
  },
  {
   "property": "C10",
   "status": "proved",
   "theorems": [
    "C10_nested_context"
   ],
   "note": "Any nesting depth below the pushed context."
  },
  {
   "property": "C11",
   "status": "proved",
   "theorems": [
    "C11_split_follows_rules"
   ],
   "note": "For every line in a buffer with one spare byte and enough argv slots."
  },
  {
   "property": "C12",
   "status": "proved",
   "theorems": [
    "C12_word_count",
    "C12_words_not_empty",
    "C12_inside_line_refuted"
   ],
   "note": "The write range is the length/skipn part of C11_split_follows_rules; the stricter form is refuted."
  },
  {
   "property": "C13",
   "status": "proved",
   "theorems": [
    "C13_any_words_escaped",
    "C13_any_words_quoted"
   ],
   "note": ""
  },
  {
   "property": "C14",
   "status": "proved",
   "theorems": [
    "C14_shell_argv_refuted",
    "C14_shell_argv_short_lines"
   ],
   "note": "Refuted for the 42-slot vector; proved for lines of at most 81 characters."
  },
  {
   "property": "C15",
   "status": "proved",
   "theorems": [
    "C15_round_trip",
    "C15_encoding"
   ],
   "note": ""
  },
  {
   "property": "C16",
   "status": "proved",
   "theorems": [
    "C16_strlcpy"
   ],
   "note": "One model: the two functions have the same text."
  },
  {
   "property": "C17",
   "status": "proved",
   "theorems": [
    "C17_to_utf8_in_bounds_refuted",
    "C17_ascii_in_bounds",
    "C17_three_bytes_per_item",
    "C17_shell_call"
   ],
   "note": "Refuted in general; proved for ASCII, for three bytes per item and for the shell's call."
  },
  {
   "property": "C18",
   "status": "proved",
   "theorems": [
    "C18_from_utf8",
    "C18_truncated_text_refuted"
   ],
   "note": ""
  },
  {
   "property": "C19",
   "status": "proved",
   "theorems": [
    "C19_getwch_inverts_putwch",
    "C19_puts",
    "C19_wputs"
   ],
   "note": ""
  },
  {
   "property": "C20",
   "status": "proved",
   "theorems": [
    "C20_lengths"
   ],
   "note": ""
  },
  {
   "property": "C21",
   "status": "proved",
   "theorems": [
    "C21_keys_of_stream",
    "C21_one_key",
    "C21_any_input",
    "C21_editor_from_console"
   ],
   "note": "Also for unknown sequences, which are skipped."
  },
  {
   "property": "C22",
   "status": "proved",
   "theorems": [
    "C22_buffer_well_formed"
   ],
   "note": "For buffer_length in characters, at most the size of the array."
  },
  {
   "property": "C23",
   "status": "proved",
   "theorems": [
    "C23_text_is_abstract_text"
   ],
   "note": ""
  },
  {
   "property": "C24",
   "status": "proved",
   "theorems": [
    "C24_screen_shows_text"
   ],
   "note": "Terminal without right margin; every character >= 32 takes one cell."
  },
  {
   "property": "C25",
   "status": "proved",
   "theorems": [
    "C25_shell_buffer_refuted"
   ],
   "note": "Refuted; C22 with n = 128 and cap = 127 is the safe call."
  },
  {
   "property": "C26",
   "status": "proved",
   "theorems": [
    "C26_whole_line",
    "C26_marker"
   ],
   "note": "Long-option abbreviations included; '--' proved behind at least one item (see C57 for the first position)."
  },
  {
   "property": "C27",
   "status": "proved",
   "theorems": [
    "C27_unknown_long_refuted",
    "C27_ambiguous_long_refuted"
   ],
   "note": "Refuted with witnesses for unknown and for ambiguous long options."
  },
  {
   "property": "C28",
   "status": "proved",
   "theorems": [
    "C28_terminates_in_bounds"
   ],
   "note": "For argument lists without unknown long options, as the statement says; ambiguous options, undeclared letters and missing values are included."
  },
  {
   "property": "C29",
   "status": "proved",
   "theorems": [
    "C29_every_date",
    "C29_every_day"
   ],
   "note": "Years up to 10^9, where no int overflow occurs."
  },
  {
   "property": "C30",
   "status": "proved",
   "theorems": [
    "C30_crc16_rz",
    "C30_crc32_rz",
    "C30_crc16_sd",
    "C30_crc7_sd"
   ],
   "note": "Long division over GF(2) as specification; messages of every length."
  },
  {
   "property": "C31",
   "status": "proved",
   "theorems": [
    "C31_crc16_burst_or_odd",
    "C31_crc32_burst",
    "C31_crc7_burst",
    "C31_crc16_two_bits",
    "C31_crc32_two_bits"
   ],
   "note": "Also all odd numbers of errors for CRC-16, and two-bit errors up to a distance."
  },
  {
   "property": "C32",
   "status": "proved",
   "theorems": [
    "C32_hex_digits"
   ],
   "note": "Exhaustive over bytes and pairs of bytes."
  },
  {
   "property": "C33",
   "status": "proved",
   "theorems": [
    "C33_header_read",
    "C33_bad_check",
    "C33_header_sent"
   ],
   "note": "All three encodings, any junk before the header; check field specified by polynomial division."
  },
  {
   "property": "C34",
   "status": "proved",
   "theorems": [
    "C34_block_read",
    "C34_bad_check",
    "C34_accepted_is_block",
    "C34_blocks_exist"
   ],
   "note": "Any permitted escaping, both checksum widths; also the converse: nothing else is accepted."
  },
  {
   "property": "C35",
   "status": "proved",
   "theorems": [
    "C35_buffer_bounds",
    "C35_out_of_space"
   ],
   "note": "Any input, either signedness of char."
  },
  {
   "property": "C36",
   "status": "proved",
   "theorems": [
    "C36_header_overread_refuted"
   ],
   "note": "Refuted with witness for every header."
  },
  {
   "property": "C37",
   "status": "proved",
   "theorems": [
    "C37_called",
    "C37_missing",
    "C37_program_runs",
    "C37_refused"
   ],
   "note": "Both directions, for 32- and 64-bit files given as bytes; values modulo 2^32; a program without imports is refused (NoReloc)."
  },
  {
   "property": "C38",
   "status": "proved",
   "theorems": [
    "C38_meaning",
    "C38_one_meaning"
   ],
   "note": "Names without NUL; drive f_stat and the commands themselves are parameters."
  },
  {
   "property": "C39",
   "status": "proved",
   "theorems": [
    "C39_sorted",
    "C39_date_overflow_refuted",
    "C39_date_order_refuted"
   ],
   "note": "By time: dates before 2044; refuted beyond."
  },
  {
   "property": "C40",
   "status": "proved",
   "theorems": [
    "C40_sizes",
    "C40_number_unique"
   ],
   "note": ""
  },
  {
   "property": "C41",
   "status": "proved",
   "theorems": [
    "C41_columns",
    "C41_single_column",
    "C41_nothing"
   ],
   "note": ""
  },
  {
   "property": "C42",
   "status": "proved",
   "theorems": [
    "C42_cat",
    "C42_only_one",
    "C42_nothing_else_changed",
    "C42_left_margin",
    "C42_nul_refuted",
    "C42_latin1_refuted",
    "C42_every_line_refuted"
   ],
   "note": "The English claim of one CR per LF is refuted; exact behaviour proved."
  },
  {
   "property": "C43",
   "status": "proved",
   "theorems": [
    "C43_unix",
    "C43_unix_ioctl",
    "C43_flash",
    "C43_flash_area",
    "C43_flash_ioctl",
    "C43_unix_range_refuted",
    "C43_flash_program_refuted"
   ],
   "note": "Sector ranges that do not wrap in 32 bits (addressable); wrapping ranges are refuted."
  },
  {
   "property": "C44",
   "status": "proved",
   "theorems": [
    "C44_fields",
    "C44_capacity",
    "C44_capacity_refuted",
    "C44_capacity_2tb",
    "C44_init",
    "C44_read",
    "C44_write"
   ],
   "note": "Exact except the 2 TB register, refuted. DMA timeouts, mutexes and clock rates are not modelled."
  },
  {
   "property": "C45",
   "status": "proved",
   "theorems": [
    "C45_read",
    "C45_write",
    "C45_single_refuted",
    "C45_multi_refuted",
    "C45_idle_refuted",
    "C45_count_refuted"
   ],
   "note": "Refuted; C45_write says what success does mean, C45_read the same for reading."
  },
  {
   "property": "C46",
   "status": "proved",
   "theorems": [
    "C46_get",
    "C46_put",
    "C46_history",
    "C46_stored"
   ],
   "note": "get_fat, put_fat, move_window and sync_window for FAT12/16/32 with every sector size; exFAT and disk errors other than sectors outside the drive are not modelled. vol_ok contains that the second FAT equals the first at the start."
  },
  {
   "property": "C47",
   "status": "proved",
   "theorems": [
    "C47_grow",
    "C47_cut",
    "C47_history",
    "C47_follow"
   ],
   "note": "create_chain and remove_chain for FAT12/16/32. The free count is exact or unknown (0xFFFFFFFF); a wrong count found in FSInfo at mount is outside the hypotheses. Lost chains are covered as chains of nobody; cross-linked volumes are not."
  },
  {
   "property": "C48",
   "status": "proved",
   "theorems": [
    "C48_history",
    "C48_backstop",
    "C48_readers_refuted",
    "C48_directory_refuted",
    "C48_stale_refuted"
   ],
   "note": "Histories with at most 255 readers per file and 65535 mounts; the limits are refuted beyond, as is locking of open directories against removal. Failed remounts are not modelled. C48_backstop: inc_share alone refuses a second writer."
  },
  {
   "property": "C49",
   "status": "proved",
   "theorems": [
    "C49_decode",
    "C49_encode",
    "C49_decode_any",
    "C49_encode_any",
    "C49_overlong_refuted"
   ],
   "note": "Malformed input is rejected except overlong forms, which are refuted (C49_overlong_refuted)."
  },
  {
   "property": "C50",
   "status": "proved",
   "theorems": [
    "C50_match",
    "C50_safe",
    "C50_marks_refuted"
   ],
   "note": "Patterns with fewer than 256 question marks per group; 256 are refuted."
  },
  {
   "property": "C51",
   "status": "proved",
   "theorems": [
    "C51_cases",
    "C51_prefix",
    "C51_default"
   ],
   "note": "Every NUL-terminated path."
  },
  {
   "property": "C52",
   "status": "proved",
   "theorems": [
    "C52_name",
    "C52_safe",
    "C52_ffff_refuted"
   ],
   "note": "C52_name: all names of 1..255 units other than 0 and 0xFFFF, all contents of the entries before and of the buffers, all checksums: stored parts are the ones of the format, are read back exactly (nothing else of the buffer changed) and match exactly the names equal but for case. C52_safe: any 32 bytes and any buffer, no access outside fs->lfnbuf. C52_ffff_refuted: U+FFFF in a name cuts it."
  },
  {
   "property": "C53",
   "status": "proved",
   "theorems": [
    "C53_history",
    "C53_opened"
   ],
   "note": "f_read, f_write, f_lseek (not the fast-seek cluster map) and f_truncate on any number of open files, FAT12/16/32. Disk errors are not modelled here: sectors on the drive read and write. File times and the directory entry (f_sync) are not part of this claim."
  },
  {
   "property": "C54",
   "status": "proved",
   "theorems": [
    "C54_format",
    "C54_small",
    "C54_again",
    "C54_kernel",
    "C54_kernel_refuted",
    "C54_empty_refuted"
   ],
   "note": "The kernel (pico/flash.c) looks 64 kbytes lower when the program fills whole 64 kbytes (C54_kernel_refuted); an empty UF2 file is accepted (C54_empty_refuted). The sectors of the image itself are a parameter (f_mkfs not modelled)."
  },
  {
   "property": "C55",
   "status": "proved",
   "theorems": [
    "C55_amd64",
    "C55_amd64_bad",
    "C55_arm64",
    "C55_arm64_bad",
    "C55_arm64_refuted",
    "C55_arm32",
    "C55_arm32_refuted"
   ],
   "note": "amd64: proved for all tables; arm64: proved up to 512 imports, refuted beyond; arm32: refuted for all imports but the first (C55_arm32 says what the stubs do). Section headers (find_elf*_section) not modelled."
  },
  {
   "property": "C56",
   "status": "proved",
   "theorems": [
    "C56_exact_name_refuted"
   ],
   "note": "Refuted; C26 covers exact names standing before longer ones."
  },
  {
   "property": "C57",
   "status": "proved",
   "theorems": [
    "C57_marker_first_refuted"
   ],
   "note": "Refuted for the first argument."
  },
  {
   "property": "C58",
   "status": "proved",
   "theorems": [
    "C58_any_input"
   ],
   "note": "Assumes a NUL somewhere behind the data buffer (C61). File system calls are events; f_write may run out of space."
  },
  {
   "property": "C59",
   "status": "proved",
   "theorems": [
    "C59_session",
    "C59_one_file",
    "C59_frames_exist"
   ],
   "note": "Byte sequences are a relation covering all escapings; frames_exist shows it is inhabited for all contents."
  },
  {
   "property": "C60",
   "status": "proved",
   "theorems": [
    "C60_second_file_refuted"
   ],
   "note": "Refuted with witness."
  },
  {
   "property": "C61",
   "status": "proved",
   "theorems": [
    "C61_name_overread_refuted"
   ],
   "note": "Refuted with witness."
  },
  {
   "property": "C62",
   "status": "proved",
   "theorems": [
    "C62_position_ignored_refuted"
   ],
   "note": "Refuted for every position."
  },
  {
   "property": "C63",
   "status": "proved",
   "theorems": [
    "C63_signed_char_refuted"
   ],
   "note": "Refuted with witness."
  },
  {
   "property": "C64",
   "status": "proved",
   "theorems": [
    "C64_reads_inside_refuted"
   ],
   "note": "Refuted; program files are read safely (C37_program_runs)."
  },
  {
   "property": "C65",
   "status": "proved",
   "theorems": [
    "C65_program",
    "C65_unresolved",
    "C65_nothing_else_called",
    "C65_balanced",
    "C65_always_balanced_refuted"
   ],
   "note": "Refuted when stack or heap is short; descriptor 0 excluded."
  },
  {
   "property": "C66",
   "status": "proved",
   "theorems": [
    "C66_closed_once_refuted"
   ],
   "note": "Refuted."
  },
  {
   "property": "C67",
   "status": "proved",
   "theorems": [
    "C67_prompt",
    "C67_prompt_length",
    "C67_prompt_fits_refuted"
   ],
   "note": "Refuted for prompt[128]; exact condition proved."
  },
  {
   "property": "C68",
   "status": "proved",
   "theorems": [
    "C68_line",
    "C68_dialog"
   ],
   "note": "Lines below 128 characters (see C25) and below 42 words (see C14)."
  },
  {
   "property": "C69",
   "status": "proved",
   "theorems": [
    "C69_long_form",
    "C69_aligned"
   ],
   "note": ""
  },
  {
   "property": "C70",
   "status": "proved",
   "theorems": [
    "C70_name_overflow_refuted"
   ],
   "note": "Refuted: every invalid name of 256 bytes or more overruns the buffer."
  },
  {
   "property": "C71",
   "status": "proved",
   "theorems": [
    "C71_argument_refuted"
   ],
   "note": "Refuted. f_stat answering with the last component is taken from fatfs.c get_fileinfo."
  },
  {
   "property": "C72",
   "status": "proved",
   "theorems": [
    "C72_recursive"
   ],
   "note": "Without arguments; nesting depth is the fuel."
  },
  {
   "property": "C73",
   "status": "proved",
   "theorems": [
    "C73_hidden_refuted"
   ],
   "note": "Refuted."
  },
  {
   "property": "C74",
   "status": "proved",
   "theorems": [
    "C74_in_bounds",
    "C74_text_unchanged",
    "C74_any_file"
   ],
   "note": ""
  },
  {
   "property": "C75",
   "status": "proved",
   "theorems": [
    "C75_capital",
    "C75_capital_refuted",
    "C75_upper",
    "C75_pairs"
   ],
   "note": "Enumeration of all 16-bit codes lifted to a theorem. C75_capital pins every value against the Unicode case pairs; C75_capital_refuted: three capital letters become their small letters (U+023A, U+023E, U+1FCC), harmless for comparing names but not for what is stored."
  },
  {
   "property": "C76",
   "status": "proved",
   "theorems": [
    "C76_find",
    "C76_list",
    "C76_register",
    "C76_remove",
    "C76_find_safe",
    "C76_read_safe"
   ],
   "note": "The table is an array of entries with stretching by zeroed clusters (dir_sdi, dir_next over the FAT chain not refined; disk errors left out). Tables with stray long name entries (left by other systems) are covered by the safety theorems only."
  },
  {
   "property": "C77",
   "status": "proved",
   "theorems": [
    "C77_create",
    "C77_reject",
    "C77_any",
    "C77_short",
    "C77_ffff_refuted"
   ],
   "note": "U+FFFF in a name is excluded: it is accepted, but the file is not found again (C77_ffff_refuted)."
  },
  {
   "property": "C78",
   "status": "proved",
   "theorems": [
    "C78_one",
    "C78_make",
    "C78_remove",
    "C78_again"
   ],
   "note": "Over the directory table of C76, one directory at a time."
  },
  {
   "property": "C79",
   "status": "proved",
   "theorems": [
    "C79_listed",
    "C79_long_refuted",
    "C79_foreign_refuted",
    "C79_read",
    "C79_safe"
   ],
   "note": "Names of more than 255 bytes in UTF-8 are listed with the short alias (C79_long_refuted); short names of other systems with bytes from 0x80 cannot be found by the name they are listed with (C79_foreign_refuted)."
  },
  {
   "property": "C80",
   "status": "proved",
   "theorems": [
    "C80_one",
    "C80_opendir"
   ],
   "note": "The path has no drive prefix (see C51). Texts are characters from 32 on other than U+FFFF; a character below 32 ends a path."
  },
  {
   "property": "C81",
   "status": "proved",
   "theorems": [
    "C81_step"
   ],
   "note": "Directories are the tables of C76, the FAT is given by its chains and free clusters (C46, C47); objects that are open at the time, disk errors and exFAT are left out. The move of a directory into itself is excluded (C87)."
  },
  {
   "property": "C82",
   "status": "proved",
   "theorems": [
    "C82_history",
    "C82_leak"
   ],
   "note": "See C81. The hypothesis \"may\" says that each operation is allowed when it comes: well-formed arguments and no move of a directory into itself."
  },
  {
   "property": "C83",
   "status": "proved",
   "theorems": [
    "C83_room",
    "C83_refuted"
   ],
   "note": "The second sentence is false: a create that is refused may have stretched the directory by clusters that stay with it (C83_refuted)."
  },
  {
   "property": "C84",
   "status": "proved",
   "theorems": [
    "C84_list"
   ],
   "note": ""
  },
  {
   "property": "C85",
   "status": "proved",
   "theorems": [
    "C85_stat",
    "C85_refuted"
   ],
   "note": "For a file with a long name f_stat gives the name as written in the path, not the name of the file: other case, or the short alias (C85_refuted); C85_stat says exactly that."
  },
  {
   "property": "C86",
   "status": "proved",
   "theorems": [
    "C86_getcwd"
   ],
   "note": "The checks at the start (volume mounted, media present) are left out. fuel bounds the levels to go up; any number from that of the directories does."
  },
  {
   "property": "C87",
   "status": "proved",
   "theorems": [
    "C87_refuted"
   ],
   "note": "Refuted: a directory can be moved into itself. Its clusters are then used but not reachable. For all other moves see C81."
  },
  {
   "property": "C88",
   "status": "proved",
   "theorems": [
    "C88_mount",
    "C88_refuted"
   ],
   "note": "Reads succeed; writes fail for any set of sectors. exFAT is not modelled: the outcome MK_EXFAT stands for it. Erase blocks above 16 sectors: C88_refuted (1024 sectors: f_mkfs answers FR_OK, but no filesystem is found). All drivers of the repository have blocks of one sector."
  },
  {
   "property": "C89",
   "status": "proved",
   "theorems": [
    "C89_empty",
    "C89_refuted"
   ],
   "note": "The free count needs FSINFO to be written: f_mkfs ignores an error there (C89_refuted), so the theorem asks for that sector to be writable on FAT32."
  },
  {
   "property": "C90",
   "status": "proved",
   "theorems": [
    "C90_frame",
    "C90_safe",
    "C90_refuted"
   ],
   "note": "A failing write leaves the sectors as they were (simplification). C90_refuted: with a partition table and a work buffer of less than 4096 bytes, memset writes beyond the buffer."
  },
  {
   "property": "C91",
   "status": "proved",
   "theorems": [
    "C91_verdict"
   ],
   "note": "Erase blocks of one sector, work buffer of at least 4096 bytes."
  },
  {
   "property": "C92",
   "status": "proved",
   "theorems": [
    "C92_sound",
    "C92_wrap_refuted",
    "C92_size_refuted"
   ],
   "note": "For volumes whose system areas do not reach 2^32 sectors and which fit on the drive. mount_volume checks neither: C92_wrap_refuted (FAT and data overlap), C92_size_refuted. The limits 4085 and 65525 between the kinds of FAT are one more than in the specification, on purpose."
  },
  {
   "property": "C93",
   "status": "proved",
   "theorems": [
    "C93_count",
    "C93_refuted"
   ],
   "note": "owns is the consistency of FatSpec (C46). C93_refuted: the number of blocks is that of the whole volume, not of the clusters."
  },
  {
   "property": "C94",
   "status": "proved",
   "theorems": [
    "C94_directory",
    "C94_all",
    "C94_file",
    "C94_kept",
    "C94_args"
   ],
   "note": "The share check of f_unlink is left out: no file below the directory is open (unopened). Paths with .. and names of more than 255 UTF-8 bytes are excluded (leads, short_names). C94_all: nothing is left if nothing is pinned and the tree is not too deep."
  },
  {
   "property": "C95",
   "status": "proved",
   "theorems": [
    "C95_refuted",
    "C95_asks_refuted"
   ],
   "note": "C95_refuted: rm -rv shows the path of the last entry in place of the directory. C95_asks_refuted: rm -rf asks."
  },
  {
   "property": "C96",
   "status": "proved",
   "theorems": [
    "C96_refuted",
    "C96_dot_refuted"
   ],
   "note": "C96_refuted: 18 directories in one another; the table of open directories has 16 places. C96_dot_refuted: rm -r . removes the contents, then shows an error."
  },
  {
   "property": "C97",
   "status": "proved",
   "theorems": [
    "C97_into",
    "C97_new"
   ],
   "note": "The destination is not the source or below it (C99) and has no colon. One source; a further source repeats the step."
  },
  {
   "property": "C98",
   "status": "proved",
   "theorems": [
    "C98_taken",
    "C98_refuted"
   ],
   "note": "C98_taken: f_rename answers FR_EXIST for any answer and option. C98_refuted: a witness."
  },
  {
   "property": "C99",
   "status": "proved",
   "theorems": [
    "C99_itself_refuted",
    "C99_overflow",
    "C99_refuted"
   ],
   "note": "C99_itself_refuted: mv d d loses the directory. C99_overflow and C99_refuted: a last component of more than 256 bytes overflows the buffer, whether or not there is such a file."
  },
  {
   "property": "C100",
   "status": "proved",
   "theorems": [
    "C100_find",
    "C100_name"
   ],
   "note": "Names of more than 255 UTF-8 bytes are excluded. The table of open files is left out. Patterns with more than four groups of wildcards or 256 question marks in one are excluded, see C50."
  },
  {
   "property": "C101",
   "status": "proved",
   "theorems": [
    "C101_escape"
   ],
   "note": ""
  },
  {
   "property": "C102",
   "status": "proved",
   "theorems": [
    "C102_once",
    "C102_repeat"
   ],
   "note": "strtol is a parameter; what vprintf of the C library makes of one conversion is not modelled. Widths and precisions from arguments are not zero (see C104), X is excluded (see C106), and a format with %% is used once (see C105)."
  },
  {
   "property": "C103",
   "status": "proved",
   "theorems": [
    "C103_plain"
   ],
   "note": ""
  },
  {
   "property": "C104",
   "status": "proved",
   "theorems": [
    "C104_percent_refuted",
    "C104_long_refuted",
    "C104_zero_refuted",
    "C104_large_refuted"
   ],
   "note": "Refuted: a % and flags at the end of the format (printf 100%): strchr finds the zero at the end among the flags and the scan goes on behind the string. 61 bytes or more before %d overflow the buffer of mklong. A width of 0 for an asterisk is not passed on, so vprintf takes one argument too few. A width above 65535 as last argument passes a null pointer to %s."
  },
  {
   "property": "C105",
   "status": "proved",
   "theorems": [
    "C105_refuted"
   ],
   "note": "Refuted: the second % is replaced by a zero for good. printf \"%d%%\\n\" 1 2 shows 1%, a new line, 2 and \"illegal format character\"."
  },
  {
   "property": "C106",
   "status": "proved",
   "theorems": [
    "C106_refuted"
   ],
   "note": "Refuted: mklong replaces X by x."
  },
  {
   "property": "C107",
   "status": "proved",
   "theorems": [
    "C107_text",
    "C107_bytes",
    "C107_reads",
    "C107_putc"
   ],
   "note": ""
  },
  {
   "property": "C108",
   "status": "proved",
   "theorems": [
    "C108_printf"
   ],
   "note": "the type of the arguments is part of the hypothesis; floating point conversions show what ftoa returns (C109)"
  },
  {
   "property": "C109",
   "status": "proved",
   "theorems": [
    "C109_float",
    "C109_refuted"
   ],
   "note": "shape and length, not the value of the digits; refuted for %.26e of 0.0, which writes past the buffer"
  },
  {
   "property": "C110",
   "status": "proved",
   "theorems": [
    "C110_max_refuted",
    "C110_zero_refuted"
   ],
   "note": "refuted: %e of DBL_MAX and %.400f of 0.0 never end"
  },
  {
   "property": "C111",
   "status": "proved",
   "theorems": [
    "C111_colon_refuted",
    "C111_slash_refuted"
   ],
   "note": "refuted: %.0f of 1e28 shows a colon, %.18f of 0.009 shows a slash"
  },
  {
   "property": "C112",
   "status": "proved",
   "theorems": [
    "C112_sign_refuted",
    "C112_star_refuted",
    "C112_binary_refuted"
   ],
   "note": "refuted: %05d of -42 shows 00-42, a width of -5 for * becomes 4294967291, %llb of 2^32 shows 32 zeros"
  },
  {
   "property": "C113",
   "status": "proved",
   "theorems": [
    "C113_expand"
   ],
   "note": "f_expand on FAT12/16/32; the remaining outcome, a block found across the end of the volume, is described by the theorem and is the subject of C114"
  },
  {
   "property": "C114",
   "status": "proved",
   "theorems": [
    "C114_split_refuted"
   ],
   "note": "refuted: on an empty volume of 398 clusters with the search starting at 200, a file of 300 clusters is not made, FR_INT_ERR is returned and clusters 200 to 399 are lost"
  },
  {
   "property": "C115",
   "status": "proved",
   "theorems": [
    "C115_straddle_refuted"
   ],
   "note": "refuted: FR_DENIED with clusters 2 to 398 free, as the search starts in the middle of them and counts only from there"
  },
  {
   "property": "C116",
   "status": "proved",
   "theorems": [
    "C116_linkmap"
   ],
   "note": "for chains whose end mark is not the number after the last cluster, which holds for all usual end marks"
  },
  {
   "property": "C117",
   "status": "proved",
   "theorems": [
    "C117_seek",
    "C117_read"
   ],
   "note": "f_lseek and f_read with a link map that describes the file (C116 makes one)"
  },
  {
   "property": "C118",
   "status": "proved",
   "theorems": [
    "C118_forward"
   ],
   "note": "the stream is any finite list of turns, busy afterwards"
  },
  {
   "property": "C119",
   "status": "proved",
   "theorems": [
    "C119_set",
    "C119_again",
    "C119_get"
   ],
   "note": "VolModel models f_setlabel and the label half of f_getlabel on FAT volumes over the directory table of FdirModel; disk errors and exFAT are left out. At most one visible label is assumed for C119_again (with two, deleting the first uncovers the second); C119_set has no such hypothesis."
  },
  {
   "property": "C120",
   "status": "proved",
   "theorems": [
    "C120_serial",
    "C120_safe"
   ],
   "note": "C120_safe: any directory contents. C120_serial composes with the model of f_mkfs and mount_volume (C88)."
  },
  {
   "property": "C121",
   "status": "proved",
   "theorems": [
    "C121_set",
    "C121_show"
   ],
   "note": "Modelled for the board with the RP2040 clock; vsscanf and rtc_set_datetime are modelled from their documentation."
  },
  {
   "property": "C122",
   "status": "proved",
   "theorems": [
    "C122_set",
    "C122_show"
   ],
   "note": "As C121."
  },
  {
   "property": "C123",
   "status": "proved",
   "theorems": [
    "C123_listed",
    "C123_ordered",
    "C123_late_refuted"
   ],
   "note": "C123_listed and C123_ordered hold for 1980-2107; C123_late_refuted shows the wrap for every later year."
  },
  {
   "property": "C124",
   "status": "proved",
   "theorems": [
    "C124_calendar_refuted",
    "C124_ignored_refuted"
   ],
   "note": "The claim is false of the code; both theorems give witnesses, the second for every year from 4096 to 9999."
  },
  {
   "property": "C125",
   "status": "proved",
   "theorems": [
    "C125_question",
    "C125_onto_itself",
    "C125_directory_without_r"
   ],
   "note": "C125_question, C125_onto_itself (any luck), C125_directory_without_r; over an abstract file system, paths without \".\" and \"..\"."
  },
  {
   "property": "C126",
   "status": "proved",
   "theorems": [
    "C126_to_name",
    "C126_into_directory"
   ],
   "note": "C126_to_name and C126_into_directory; the answers to questions are the matter of C125, so here -f is given or no file is in the way."
  },
  {
   "property": "C127",
   "status": "proved",
   "theorems": [
    "C127_confined"
   ],
   "note": "For every function luck that decides how each call ends; the destination is a path of names."
  },
  {
   "property": "C128",
   "status": "proved",
   "theorems": [
    "C128_defined_refuted",
    "C128_place_refuted",
    "C128_empty_refuted"
   ],
   "note": "The claim is false of the code; three witnesses. The case that does work, a slash at both ends and one source, is in C126_to_name."
  },
  {
   "property": "C129",
   "status": "proved",
   "theorems": [
    "C129_readdir_refuted",
    "C129_close_refuted"
   ],
   "note": "The claim is false of the code; one witness for f_readdir, one for f_close."
  },
  {
   "property": "C130",
   "status": "proved",
   "theorems": [
    "C130_into_itself_refuted"
   ],
   "note": "The claim is false of the code; the witness makes 17 levels."
  },
  {
   "property": "C131",
   "status": "proved",
   "theorems": [
    "C131_echo"
   ],
   "note": "The option parser is the model of C26, not an assumption."
  },
  {
   "property": "C132",
   "status": "proved",
   "theorems": [
    "C132_gpio",
    "C132_gpio_alone"
   ],
   "note": "The Pico SDK functions and strtoul are modelled from their documentation. The text of -h is left out."
  },
  {
   "property": "C133",
   "status": "proved",
   "theorems": [
    "C133_words_refuted",
    "C133_dash_refuted",
    "C133_defined_refuted"
   ],
   "note": "The claims are false of the code; witnesses foo=1, 1=0-5 and 40."
  },
  {
   "property": "C134",
   "status": "proved",
   "theorems": [
    "C134_format",
    "C134_no_drive",
    "C134_one_name"
   ],
   "note": "Line editor, option parser and drive names are the models of C21-C26 and C51. f_mkfs is abstract here (see C88-C91 for its model)."
  },
  {
   "property": "C135",
   "status": "proved",
   "theorems": [
    "C135_reply_refuted"
   ],
   "note": "The claim is false of the code; witness of 32 characters. rm, mv and cp have the same call."
  },
  {
   "property": "C136",
   "status": "proved",
   "theorems": [
    "C136_row",
    "C136_no_row"
   ],
   "note": ""
  },
  {
   "property": "C137",
   "status": "proved",
   "theorems": [
    "C137_mbytes",
    "C137_free"
   ],
   "note": ""
  },
  {
   "property": "C138",
   "status": "proved",
   "theorems": [
    "C138_speed",
    "C138_left_refuted"
   ],
   "note": "The first half is proved, the second is false of the code (witness: the first write fails). Times are left out."
  },
  {
   "property": "C139",
   "status": "proved",
   "theorems": [
    "C139_one",
    "C139_block",
    "C139_mark"
   ],
   "note": "find_bitmap and change_bitmap with the sector window; the drive fails exactly on sectors outside it."
  },
  {
   "property": "C140",
   "status": "proved",
   "theorems": [
    "C140_expand",
    "C140_inside_refuted",
    "C140_complete_refuted",
    "C140_size_refuted"
   ],
   "note": "C140_expand holds if the first or last cluster is in use; the three claims without the conditions are refuted with witnesses (findings in DESIGN.md)."
  },
  {
   "property": "C141",
   "status": "proved",
   "theorems": [
    "C141_count"
   ],
   "note": "The exFAT branch of the count."
  },
  {
   "property": "C142",
   "status": "proved",
   "theorems": [
    "C142_step",
    "C142_history",
    "C142_largest_refuted"
   ],
   "note": "Files of whole clusters; data sectors and directory entries are not part of this model. Proved for volumes of less than 2^31 - 3 clusters; the largest number is the refuted case."
  },
  {
   "property": "C143",
   "status": "proved",
   "theorems": [
    "C143_file"
   ],
   "note": "The directory is a list of 32-byte entries and the drive has no errors; which entries are used is a parameter (dir_alloc, C76 and C83 for FAT)."
  },
  {
   "property": "C144",
   "status": "proved",
   "theorems": [
    "C144_valid",
    "C144_damage",
    "C144_count"
   ],
   "note": "The directory is a list of 32-byte entries and the drive has no errors. The count of entries (byte 1) is treated separately (C144_count)."
  },
  {
   "property": "C145",
   "status": "proved",
   "theorems": [
    "C145_find",
    "C145_list",
    "C145_list_damaged"
   ],
   "note": "The directory is a list of 32-byte entries and the drive has no errors."
  },
  {
   "property": "C146",
   "status": "proved",
   "theorems": [
    "C146_remove",
    "C146_none"
   ],
   "note": "The file is not open and not read-only; the directory is a list of 32-byte entries and the drive has no errors. The clusters of the file are C142."
  },
  {
   "property": "C147",
   "status": "proved",
   "theorems": [
    "C147_new"
   ],
   "note": "The table of the directory is not stretched by a new cluster (C83 for FAT); a list of 32-byte entries on a drive without errors."
  }
 ]
}