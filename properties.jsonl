{"id": "C01", "title": "Allocated blocks are aligned, in the heap, big enough and disjoint", "statement": "Every non-null pointer returned by fpm_alloc, fpm_alloc_dirty or fpm_realloc is pointer-aligned, lies inside the heap given to fpm_heap_init, has fpm_sizeof at least the requested size, and its bytes overlap no other live block and no free block, after any history of alloc, free, realloc and truncate calls.", "quantifier": "every heap start/size, pointer size 4 or 8, every history of allocator calls with requests below the wrap limit", "why_tests_cant": "Overlap appears only for particular interleavings of split and merge; the number of histories is unbounded.", "anchors": ["kernel/fpm_alloc.c:fpm_alloc_dirty", "kernel/fpm_alloc.c:make_free_block", "kernel/fpm_alloc.c:fpm_realloc", "kernel/fpm_alloc.c:fpm_truncate"]}
{"id": "C02", "title": "Allocator calls never modify other live blocks", "statement": "No allocator call changes a byte of the contents or the recorded size of a live block that is not its argument, and no byte outside the heap.", "quantifier": "every history of allocator calls and every byte of every other live block", "why_tests_cant": "A stray header or link write corrupts data only at specific layouts; tests watch a few blocks for a few layouts.", "anchors": ["kernel/fpm_alloc.c:fpm_alloc_dirty", "kernel/fpm_alloc.c:make_free_block", "kernel/fpm_alloc.c:fpm_free"]}
{"id": "C03", "title": "fpm_heap_available is exact", "statement": "After any history, fpm_heap_available() equals the heap size minus the sum of the sizes (with headers) of all live blocks, and equals the total size of the free blocks.", "quantifier": "every history of allocator calls", "why_tests_cant": "A drift by one header occurs only on particular merge paths and accumulates over unbounded histories.", "anchors": ["kernel/fpm_alloc.c:fpm_heap_available", "kernel/fpm_alloc.c:fpm_alloc_dirty", "kernel/fpm_alloc.c:make_free_block"]}
{"id": "C04", "title": "Free space is always fully coalesced", "statement": "After any history no two free blocks are adjacent, and once every live block has been freed the heap is again a single free block equal to the initial one, so the largest possible request succeeds again.", "quantifier": "every history of allocator calls, every order of frees", "why_tests_cant": "Fragmentation bugs need a specific order of frees; orders grow factorially.", "anchors": ["kernel/fpm_alloc.c:make_free_block"]}
{"id": "C05", "title": "Allocation fails only when nothing fits, and failing changes nothing", "statement": "fpm_alloc and fpm_alloc_dirty return NULL exactly when no free block has room for the rounded request plus header, and then leave every byte of memory and all accounting unchanged; otherwise they use the lowest-addressed block that fits.", "quantifier": "every reachable heap and request size", "why_tests_cant": "Tests cannot enumerate the heap layouts in which a fitting block exists but might be skipped.", "anchors": ["kernel/fpm_alloc.c:fpm_alloc_dirty", "kernel/fpm_alloc.c:fpm_alloc"]}
{"id": "C06", "title": "fpm_alloc zeroes the requested bytes", "statement": "A block returned by fpm_alloc(n) reads as zero in its first n bytes whatever was stored there before.", "quantifier": "every reachable heap, every previous memory content, every n", "why_tests_cant": "Depends on all prior contents of reused memory.", "anchors": ["kernel/fpm_alloc.c:fpm_alloc"]}
{"id": "C07", "title": "fpm_realloc keeps contents or reports failure", "statement": "fpm_realloc returns the same pointer when the block is already big enough; otherwise on success the new block starts with all the bytes of the old block and the old block is free; on failure it returns NULL and the old block has been freed; no other live block changes.", "quantifier": "every reachable heap, live block and new size", "why_tests_cant": "Needs every combination of layout, old size and new size, including failure.", "anchors": ["kernel/fpm_alloc.c:fpm_realloc"]}
{"id": "C08", "title": "fpm_truncate only gives memory back", "statement": "fpm_truncate(p,n) keeps p live and its first min(n, old size) bytes intact, never grows a block, and returns exactly the removed tail to the free space.", "quantifier": "every reachable heap, live block and n below the wrap limit", "why_tests_cant": "Tail splitting interacts with merging for arbitrary neighbours.", "anchors": ["kernel/fpm_alloc.c:fpm_truncate"]}
{"id": "C09", "title": "Huge requests are not satisfied with small blocks", "statement": "For every request size n, a non-null result has at least n usable bytes. (Refuted: the size computation wraps, so requests near 2^32 return tiny blocks; proved for requests below the limit.)", "quantifier": "every n representable in size_t", "why_tests_cant": "The size domain is 2^32 or 2^64 values.", "anchors": ["kernel/fpm_alloc.c:size_align", "kernel/fpm_alloc.c:fpm_alloc_dirty", "kernel/fpm_alloc.c:fpm_truncate"]}
{"id": "C10", "title": "A nested program context leaves the parent heap intact", "statement": "After fpm_context_push, any history of allocator calls in the nested context changes only bytes inside one free block of the parent; after fpm_context_pop the parent heap has the same free blocks, live blocks, block contents and accounting as before the push.", "quantifier": "every reachable parent heap, every history in the nested context", "why_tests_cant": "The nested program can perform any sequence of allocations; a test runs one program.", "anchors": ["kernel/fpm_alloc.c:fpm_context_push", "kernel/fpm_alloc.c:fpm_context_pop", "kernel/fpm_alloc.c:fpm_heap_setup"]}
{"id": "C11", "title": "Command lines are split as the quoting rules say", "statement": "fpm_tokenize returns exactly the words given by the quoting rules (blanks separate, backslash escapes the next character everywhere, apostrophes and double quotes group and protect each other), and reports an unterminated apostrophe, unterminated quote or dangling backslash exactly when the line has one.", "quantifier": "every NUL-terminated command line", "why_tests_cant": "The rules interact in unboundedly many character orders.", "anchors": ["kernel/fpm_tokenize.c:fpm_tokenize"]}
{"id": "C12", "title": "Tokenizing stays within one byte of the line and yields only non-empty words", "statement": "fpm_tokenize writes only inside the original line, its terminator and one byte after it, every returned word is non-empty and NUL-terminated inside the buffer, and a line of n characters yields at most (n+1)/2 words. (That it stays inside the line including its terminator is refuted: the extra NUL is stored one byte further.)", "quantifier": "every NUL-terminated command line", "why_tests_cant": "The copy is in place; one off-by-one for one input shape corrupts memory.", "anchors": ["kernel/fpm_tokenize.c:fpm_tokenize", "kernel/fpm_shell.c:execute_line"]}
{"id": "C13", "title": "Any argument list can be passed through the command line", "statement": "For every list of non-empty words there is a command line (each character backslash-escaped, or quoted) which fpm_tokenize splits into exactly that list.", "quantifier": "every list of non-empty words without NUL", "why_tests_cant": "Unbounded words and characters.", "anchors": ["kernel/fpm_tokenize.c:fpm_tokenize"]}
{"id": "C14", "title": "The shell's argument vector is large enough for every line", "statement": "Every command line the shell can read produces at most as many words as fit in its argument vector. (Refuted: a 127-character line can hold 64 words, the vector has 42 slots; proved for lines short enough.)", "quantifier": "every line up to the editor's limit", "why_tests_cant": "Only lines with more than 41 words trigger it.", "anchors": ["kernel/fpm_shell.c:fpm_shell", "kernel/fpm_tokenize.c:fpm_tokenize"]}
{"id": "C15", "title": "Wide to UTF-8 and back is the identity", "statement": "For every string of non-zero 16-bit characters, fpm_strlcpy_to_utf8 into a large enough buffer followed by fpm_strlcpy_from_utf8 gives back the same string.", "quantifier": "every string of 16-bit characters", "why_tests_cant": "Strings are unbounded and every code unit matters.", "anchors": ["kernel/fpm_strlcpy.c:fpm_strlcpy_to_utf8", "kernel/fpm_strlcpy.c:fpm_strlcpy_from_utf8"]}
{"id": "C16", "title": "fpm_strlcpy and fpm_strlcpy_unicode copy, truncate and terminate correctly", "statement": "They write exactly min(strlen(src), nitems-1) characters and one NUL when nitems > 0 and nothing when nitems = 0, leave the rest of the destination unchanged, and return strlen(src).", "quantifier": "every source string, destination content and nitems", "why_tests_cant": "Boundary combinations of length and size.", "anchors": ["kernel/fpm_strlcpy.c:fpm_strlcpy", "kernel/fpm_strlcpy.c:fpm_strlcpy_unicode"]}
{"id": "C17", "title": "fpm_strlcpy_to_utf8 stays inside its buffer", "statement": "fpm_strlcpy_to_utf8(dst, src, n) writes at most n bytes. (Refuted: it counts characters, not bytes; proved when every character is below 0x80, and writes never exceed 3n in general.)", "quantifier": "every source string and every n", "why_tests_cant": "Only non-ASCII text longer than a third of the buffer overflows.", "anchors": ["kernel/fpm_strlcpy.c:fpm_strlcpy_to_utf8"]}
{"id": "C18", "title": "fpm_strlcpy_from_utf8 decodes well-formed text and stays inside both buffers", "statement": "For well-formed UTF-8 of up to three bytes per character it reads only up to the terminator, writes at most nitems units, NUL-terminates, and yields the first nitems-1 characters of the text. (Reading past the terminator for a truncated sequence is a separate refuted statement.)", "quantifier": "every well-formed text and every nitems", "why_tests_cant": "Unbounded texts and truncation points.", "anchors": ["kernel/fpm_strlcpy.c:fpm_strlcpy_from_utf8"]}
{"id": "C19", "title": "Console characters survive output and input", "statement": "Bytes written by fpm_putwch for any sequence of 16-bit characters are read back by fpm_getwch as the same sequence, and fpm_puts reproduces every well-formed text byte for byte.", "quantifier": "every sequence of 16-bit characters", "why_tests_cant": "65536 characters in unbounded sequences.", "anchors": ["kernel/fpm_putwch.c:fpm_putwch", "kernel/fpm_getwch.c:fpm_getwch", "kernel/fpm_puts.c:fpm_puts", "kernel/fpm_wputs.c:fpm_wputs"]}
{"id": "C20", "title": "fpm_utf8len counts characters", "statement": "For every text encoded from 16-bit characters, fpm_utf8len equals the number of characters and fpm_strwlen of the decoded text.", "quantifier": "every text", "why_tests_cant": "Unbounded texts.", "anchors": ["kernel/fpm_strwlen.c:fpm_utf8len", "kernel/fpm_strwlen.c:fpm_strwlen"]}
{"id": "C21", "title": "Keys are decoded from escape sequences", "statement": "fpm_getkey maps the documented ANSI sequences to the arrow, Home, End and Delete keys, returns every other character unchanged, and any stream of ordinary characters and documented sequences is decoded to the corresponding key stream without losing or inventing keys.", "quantifier": "every stream of ordinary characters and documented sequences", "why_tests_cant": "Streams are unbounded; a decoder can lose sync after any prefix.", "anchors": ["kernel/fpm_getkey.c:fpm_getkey"]}
{"id": "C22", "title": "The line editor keeps its buffer well-formed", "statement": "After every key, the cursor is between 0 and the text length, the text is NUL-terminated, its length is below buffer_length and no write falls outside buffer_length characters, for every key sequence.", "quantifier": "every key sequence, buffer length, initial text and history", "why_tests_cant": "Unbounded key sequences with insertion and deletion at any position.", "anchors": ["kernel/fpm_editline.c:fpm_editline"]}
{"id": "C23", "title": "The line editor edits like a line editor", "statement": "For every key sequence the resulting text equals that of an abstract editor with a text before and a text after the cursor (insert, delete left, delete right, move, home, end, kill line, history), and characters are refused only when the line is full.", "quantifier": "every key sequence", "why_tests_cant": "Unbounded key sequences.", "anchors": ["kernel/fpm_editline.c:fpm_editline"]}
{"id": "C24", "title": "The screen shows what is being edited", "statement": "After every key, a terminal that received the editor's output shows the prompt followed by exactly the current text on the line, with the cursor at the editing position.", "quantifier": "every key sequence (texts that do not wrap the terminal)", "why_tests_cant": "Redraw errors depend on the whole key history.", "anchors": ["kernel/fpm_editline.c:fpm_editline"]}
{"id": "C25", "title": "Callers give the line editor enough space", "statement": "fpm_editline never writes past the buffers its callers pass. (Refuted: callers pass sizes in bytes, the editor counts characters; a long line overflows.)", "quantifier": "every key sequence in every caller", "why_tests_cant": "Needs a line longer than half the buffer.", "anchors": ["kernel/fpm_editline.c:fpm_editline", "kernel/fpm_shell.c:fpm_shell", "kernel/cmd/cmd_remove.c"]}
{"id": "C26", "title": "Well-formed command lines are parsed into exactly their options and arguments", "statement": "For every option table and every argument list built from clustered short options, short options with attached or separate values, long options with '=' or separate values, the '--' marker and plain arguments, repeated fpm_getopt calls return exactly that sequence and then -1.", "quantifier": "every option table and well-formed argument list", "why_tests_cant": "The parser keeps hidden state between calls; combinations are unbounded.", "anchors": ["kernel/fpm_getopt.c:fpm_getopt"]}
{"id": "C27", "title": "An unknown long option is reported without disturbing the next argument", "statement": "After reporting an unknown or ambiguous long option, parsing resumes with the next argument from its beginning. (Refuted: the scan offset is left at 2.)", "quantifier": "every argument list containing an unknown long option", "why_tests_cant": "Only visible in the call after the error.", "anchors": ["kernel/fpm_getopt.c:fpm_getopt"]}
{"id": "C28", "title": "Option parsing always terminates and never reads outside the argument list", "statement": "Every sequence of fpm_getopt calls reaches -1 in a bounded number of calls, each call moving forward, and reads only characters of its arguments including their terminators. (Out-of-bounds reads after an unknown long option are refuted; proved for argument lists without unknown long options.)", "quantifier": "every argument list and option table", "why_tests_cant": "Unbounded argument lists.", "anchors": ["kernel/fpm_getopt.c:fpm_getopt"]}
{"id": "C29", "title": "Day of week is right for every date", "statement": "fpm_get_dotw(y,m,d) equals the day obtained by counting days one by one in the Gregorian calendar from a known date, for every valid date.", "quantifier": "every valid Gregorian date with year >= 1", "why_tests_cant": "Infinitely many years; the formula uses mixed corrections.", "anchors": ["kernel/fpm_get_dotw.c:fpm_get_dotw"]}
{"id": "C30", "title": "Checksums equal their polynomial definition", "statement": "The table-driven CRC-16/CCITT and CRC-32 of the rz program and CRC-7 and CRC-16 of the SD driver equal bit-by-bit division by their generator polynomials for every message.", "quantifier": "every byte string", "why_tests_cant": "Table entries and message lengths; one wrong entry hits 1 in 256 steps.", "anchors": ["apps/rz/crc.c", "pico/sd_pico/crc.c"]}
{"id": "C31", "title": "Corrupted messages are detected", "statement": "For every message of any length, any single-bit error and any burst error no longer than the checksum width changes the CRC-16 or CRC-32 of the message.", "quantifier": "every message and every burst position", "why_tests_cant": "Every message length and error pattern.", "anchors": ["apps/rz/crc.c", "pico/sd_pico/crc.c"]}
{"id": "C32", "title": "Hex numbers round-trip", "statement": "zm hex encoding of every byte/word decodes to the same value, and every non-hex digit is reported as a bad digit.", "quantifier": "every value and every byte", "why_tests_cant": "Exhaustive plus composition into all header fields.", "anchors": ["apps/rz/znumbers.c"]}
{"id": "C33", "title": "ZMODEM hex headers round-trip", "statement": "Every header sent by the hex header encoder is accepted by the hex header reader with the same type and flags, whatever follows on the line; a header with a wrong check field is rejected.", "quantifier": "every header type and flag value", "why_tests_cant": "2^40 header values.", "anchors": ["apps/rz/zheaders.c", "apps/rz/zserial.c"]}
{"id": "C34", "title": "ZMODEM escaped data round-trips", "statement": "For every byte string, a subpacket encoded with ZDLE escaping and terminated by an end marker and its checksum is received as exactly that string with the marker, for both checksum widths; with a wrong checksum the receive reports it.", "quantifier": "every byte string that fits the buffer, every marker", "why_tests_cant": "Data may contain any control byte in any position.", "anchors": ["apps/rz/zserial.c:read_escaped", "apps/rz/zserial.c:recv_data_block", "apps/rz/zserial.c:read_data_block"]}
{"id": "C35", "title": "Receiving never overflows the data buffer", "statement": "recv_data_block never stores more than the given buffer length, whatever bytes arrive, and reports out of space instead.", "quantifier": "every incoming byte stream", "why_tests_cant": "The peer controls an unbounded stream.", "anchors": ["apps/rz/zserial.c:recv_data_block"]}
{"id": "C36", "title": "Sending a hex header transmits only the header", "statement": "Sending a header transmits exactly its bytes and reads only its buffer. (Refuted: the send routine expects a NUL-terminated string, the header buffer has none.)", "quantifier": "every header", "why_tests_cant": "Depends on the byte that happens to follow the buffer in memory.", "anchors": ["apps/rz/zheaders.c", "apps/rz/zserial.c"]}
{"id": "C37", "title": "A program starts only with every symbol bound to the right function", "statement": "fpm_invoke calls the entry point only if every imported name exists, each import is bound to the first definition found by searching the innermost table first and then its parents, and otherwise the program is not started.", "quantifier": "every symbol table chain and import list", "why_tests_cant": "Arbitrary tables with shadowing.", "anchors": ["kernel/fpm_loader.c:fpm_invoke", "kernel/fpm_loader.c:find_address_by_name"]}
{"id": "C38", "title": "Commands resolve to built-ins, drives or executables", "statement": "fpm_exec treats a name ending in ':' as a drive change, a name equal to a built-in up to case as that built-in, a name containing '/' or '.' as a file, and any other name as name.exe in the current directory then flash:/bin; the path buffer is never exceeded.", "quantifier": "every command name", "why_tests_cant": "Unbounded names; exact-fit buffer.", "anchors": ["kernel/fpm_exec.c:fpm_exec", "kernel/fpm_exec.c:find_exe"]}
{"id": "C39", "title": "Directory listings are sorted permutations", "statement": "The sort used by dir and ls returns a permutation of the entries ordered by name, or newest first and then by name with -t, either order reversed with -r, for every list. With -t this needs dates before 2044; later ones make the int difference overflow or have the wrong sign (refuted).", "quantifier": "every list of entries and option", "why_tests_cant": "Unbounded lists; order laws over all keys.", "anchors": ["kernel/cmd/cmd_dir.c"]}
{"id": "C40", "title": "Sizes are printed with correct digits and grouping", "statement": "print_size prints the decimal digits of the size with a comma before every group of three, and the computed column width equals the number of characters printed.", "quantifier": "every 64-bit size", "why_tests_cant": "2^64 values.", "anchors": ["kernel/cmd/cmd_dir.c:print_size"]}
{"id": "C41", "title": "Column output shows every entry exactly once", "statement": "The multi-column listing prints every entry exactly once, column by column, for every list and screen width.", "quantifier": "every list of names and terminal width", "why_tests_cant": "Arbitrary list lengths and widths.", "anchors": ["kernel/cmd/cmd_dir.c:print_columnized"]}
{"id": "C42", "title": "cat adds exactly one carriage return per bare line feed", "statement": "cat prints any UTF-8 text without NUL unchanged, except that a CR comes before every LF that follows a byte other than CR and LF, and CR LF is added after an unfinished last line; no LF is ever printed away from the left margin, whatever the read boundaries. (Refuted: a CR before every LF; bytes after NUL; stray non-UTF-8 bytes, which swallow up to three following bytes.)", "quantifier": "every file content and chunking", "why_tests_cant": "Unbounded contents and read boundaries.", "anchors": ["kernel/cmd/cmd_cat.c"]}
{"id": "C43", "title": "Disk sectors hold what was last written to them", "statement": "On the simulated disk and on pico flash, reading a range returns for each sector the data last written to it; a write changes no other sector, nothing outside the disk area and, on flash, nothing of the program image; out-of-range requests fail without effect. (Wrapping sector numbers bypass the check: refuted separately.)", "quantifier": "every history of reads and writes with arbitrary sector numbers and counts", "why_tests_cant": "Unbounded histories; 2^32 sector numbers.", "anchors": ["unix/diskio_unix.c:disk_read", "unix/diskio_unix.c:disk_write", "pico/flash.c"]}
{"id": "C44", "title": "SD card fields are extracted from the right bits and capacity is exact", "statement": "ext_bits returns exactly the named bit slice of the 128-bit register for all slices up to 32 bits, and the sector count equals the value the SD specification assigns to the register for both CSD versions.", "quantifier": "every 16-byte register value", "why_tests_cant": "2^128 register values.", "anchors": ["pico/sd_pico/sd_card.c:ext_bits", "pico/sd_pico/sd_card.c:sd_sectors_nolock"]}
{"id": "C45", "title": "A rejected SD write is reported", "statement": "sd_write_blocks reports success only if the card accepted every block. (Refuted: the block error is overwritten by the status command's result.)", "quantifier": "every card behaviour", "why_tests_cant": "Needs a card that rejects a block but answers the status command cleanly.", "anchors": ["pico/sd_pico/sd_card.c:in_sd_write_blocks"]}
{"id": "C46", "title": "FAT entries read back as written and do not disturb each other", "statement": "After writing a FAT entry, reading it gives the written value (truncated to the entry width) and every other entry is unchanged, for FAT12 (including entries crossing a sector boundary), FAT16 and FAT32, through the one-sector window cache, and after a flush both FAT copies on disk are equal.", "quantifier": "every cluster number, value, sector size and history of reads and writes", "why_tests_cant": "Entry packing and cache state over unbounded histories.", "anchors": ["fatfs/fatfs.c:get_fat", "fatfs/fatfs.c:put_fat", "fatfs/fatfs.c:move_window", "fatfs/fatfs.c:sync_window"]}
{"id": "C47", "title": "Clusters are never shared between files", "statement": "Over any history of extending and removing files, every chain is finite, no two chains share a cluster, a newly allocated cluster was free, removing a file frees exactly its clusters, and the free-cluster count stays exact.", "quantifier": "every history of chain operations on a volume", "why_tests_cant": "Fragmentation patterns over unbounded histories.", "anchors": ["fatfs/fatfs.c:create_chain", "fatfs/fatfs.c:remove_chain"]}
{"id": "C48", "title": "A file open for writing is open exactly once", "statement": "In every history of opens and closes allowed by the lock check, no object is open for writing while any other handle has it open, counts match the open handles, and closing the last handle frees the slot.", "quantifier": "every history of open, close and delete requests", "why_tests_cant": "Interleavings of up to 16 handles on any objects.", "anchors": ["fatfs/fatfs.c:chk_share", "fatfs/fatfs.c:inc_share", "fatfs/fatfs.c:dec_share", "fatfs/fatfs.c:clear_share"]}
{"id": "C49", "title": "File name characters survive UTF-8 conversion", "statement": "Every Unicode scalar value decodes from its UTF-8 form to its UTF-16 form and encodes back to the same bytes; malformed, surrogate and out-of-range sequences are rejected.", "quantifier": "every code point and every byte sequence", "why_tests_cant": "1.1 million code points times malformed variants.", "anchors": ["fatfs/fatfs.c:tchar2uni", "fatfs/fatfs.c:put_utf"]}
{"id": "C50", "title": "Wildcard search matches what the pattern means", "statement": "Pattern matching in f_findfirst/f_findnext accepts a name exactly when '?' stands for one character and '*' for any sequence, ignoring case, for patterns with at most four wildcard groups.", "quantifier": "every pattern within the limit and every name", "why_tests_cant": "Backtracking over unbounded patterns and names.", "anchors": ["fatfs/fatfs.c:pattern_match", "fatfs/fatfs.c:get_achar"]}
{"id": "C51", "title": "Drive prefixes select the named drive", "statement": "A path with prefix 'flash:' or 'sd:' in any letter case, or a single digit and colon, selects that drive and is stripped; a path without colon uses the current drive unchanged; any other prefix is rejected.", "quantifier": "every path string", "why_tests_cant": "Unbounded strings.", "anchors": ["fatfs/fatfs.c:get_ldnumber"]}
{"id": "C52", "title": "Long names survive storage in directory entries", "statement": "A name of up to 255 units stored with put_lfn in its sequence of directory entries is recovered exactly by pick_lfn and matched by cmp_lfn ignoring case, and no other name matches.", "quantifier": "every name", "why_tests_cant": "Unbounded names, 13-unit fragments and padding.", "anchors": ["fatfs/fatfs.c:put_lfn", "fatfs/fatfs.c:pick_lfn", "fatfs/fatfs.c:cmp_lfn"]}
{"id": "C53", "title": "File data written is file data read", "statement": "For any history of f_write, f_read, f_lseek and f_truncate on an open file, the data read equals that of an ideal byte array with a position, until the disk is full, and other files' data do not change.", "quantifier": "every history of operations and every data", "why_tests_cant": "Unbounded histories crossing sector and cluster boundaries in all alignments.", "anchors": ["fatfs/fatfs.c:f_read", "fatfs/fatfs.c:f_write", "fatfs/fatfs.c:f_lseek", "fatfs/fatfs.c:f_truncate"]}
{"id": "C54", "title": "The UF2 image places the filesystem after the program", "statement": "The filesystem image produced by uf2fat starts at a 64-kbyte boundary above the program end, does not overlap the program and fits the flash; each sector is emitted as consecutive blocks whose payloads are exactly its bytes at its address.", "quantifier": "every program extent, flash size and sector set", "why_tests_cant": "Arbitrary addresses and sector sets.", "anchors": ["tools/uf2fat/format.cpp"]}
{"id": "C55", "title": "Rewritten PLT entries call the right import", "statement": "elfexe rewrites the n-th import stub to jump through slot n of the binding table, on each supported machine. (Refuted for arm32, where the slot number is used as a byte offset; bounded on arm64 by the 12-bit immediate.)", "quantifier": "every import index", "why_tests_cant": "Only large or non-zero indices expose it.", "anchors": ["tools/elfexe/elfexe.c:process_arm32_plt", "tools/elfexe/elfexe.c:process_arm64_plt", "tools/elfexe/elfexe.c:process_amd64_plt"]}
{"id": "C56", "title": "The exact name of a long option selects it", "statement": "When a typed long option equals the name of an option, that option is selected even if other names begin with it. (Refuted: two longer names earlier in the table make it ambiguous.)", "quantifier": "every option table and argument", "why_tests_cant": "Depends on table order and on other names; no existing table shows it.", "anchors": ["kernel/fpm_getopt.c:fpm_getopt"]}
{"id": "C57", "title": "The marker '--' ends option parsing wherever it stands", "statement": "An argument '--' in any position after the program name makes fpm_getopt return -1 and leaves the rest. (Refuted for the first argument, where the first call tests argv[0] instead.)", "quantifier": "every argument list", "why_tests_cant": "Depends on hidden call state.", "anchors": ["kernel/fpm_getopt.c:fpm_getopt"]}
{"id": "C58", "title": "rz is safe on any input", "statement": "Whatever bytes arrive, rz stays inside its buffer, every step consumes input, it writes to a file only after opening one and closes it last, and every block it writes is the contents of a block that arrived with a correct checksum.", "quantifier": "every byte stream, every previous buffer contents", "why_tests_cant": "The remote side controls an unbounded stream.", "anchors": ["apps/rz/rz.c:rz", "apps/rz/zserial.c"]}
{"id": "C59", "title": "rz stores exactly the file that was sent", "statement": "For a well-formed session (ZRQINIT, ZFILE, ZDATA frames of any number of blocks with any end marks, ZEOF, ZFIN; any mixture of header encodings) rz opens the given name, writes exactly the data in order, acknowledges the blocks that ask for it with the number of bytes received, and closes the file.", "quantifier": "every file name, every data, every split into blocks and frames, every permitted encoding", "why_tests_cant": "Unboundedly many data, block divisions and encodings.", "anchors": ["apps/rz/rz.c:rz"]}
{"id": "C60", "title": "rz receives several files in one session", "statement": "Each file of a session is requested from position 0 and closed before the next is opened. (Refuted: the byte count is not reset and f_close is called only at the end.)", "quantifier": "every session of several files", "why_tests_cant": "Single-file tests pass.", "anchors": ["apps/rz/rz.c:rz"]}
{"id": "C61", "title": "rz takes the file name from the received block only", "statement": "The name passed to f_open consists of bytes of the ZFILE block. (Refuted: a block without NUL lets the name run into stale buffer contents and past the buffer.)", "quantifier": "every ZFILE block", "why_tests_cant": "Needs a malformed block and particular stale memory.", "anchors": ["apps/rz/rz.c:rz"]}
{"id": "C62", "title": "rz honours data positions", "statement": "Data announced by a ZDATA header for another position than the current one is not written. (Refuted: the position is not looked at.)", "quantifier": "every announced position", "why_tests_cant": "Only happens after line errors.", "anchors": ["apps/rz/rz.c:rz"]}
{"id": "C63", "title": "ZMODEM reception does not depend on the signedness of char", "statement": "An intact block is received on every platform. (Refuted: where char is signed, every byte above 127 is an error.)", "quantifier": "every block", "why_tests_cant": "The tests run on one platform.", "anchors": ["apps/rz/rz.c:zm_recv", "apps/rz/zserial.c"]}
{"id": "C64", "title": "Loading reads only inside the file", "statement": "Whatever bytes a program file holds, fpm_load and fpm_invoke read only inside the mapped file and do not divide by zero. (Refuted: section offsets, links, symbol numbers and name offsets are used unchecked, and sh_entsize may be 0.)", "quantifier": "every file content", "why_tests_cant": "Only damaged files show it, and then only when the address is not mapped.", "anchors": ["kernel/fpm_loader.c:fpm_load", "kernel/fpm_loader.c:fpm_get_name"]}
{"id": "C65", "title": "Running a program gives back everything it took", "statement": "fpm_exec on a program file opens and maps it once, pushes one heap context, calls the entry once with the given arguments, and undoes all of it in the opposite order; nothing but a program with all imports bound is called. (Refuted without free stack or heap: descriptor and mapping are kept.)", "quantifier": "every file, argument vector, binding chain and environment answer", "why_tests_cant": "Leaks on error paths need a machine out of stack or heap.", "anchors": ["kernel/fpm_exec.c:fpm_exec", "unix/loader_unix.c"]}
{"id": "C66", "title": "A program file that cannot be mapped is closed once", "statement": "When fstat or mmap fails the descriptor is closed exactly once and nothing is unmapped. (Refuted: it is closed twice, and munmap is called with MAP_FAILED.)", "quantifier": "every failing file", "why_tests_cant": "Needs failing system calls.", "anchors": ["unix/loader_unix.c:fpm_load_arch", "unix/loader_unix.c:fpm_unload_arch"]}
{"id": "C67", "title": "The prompt fits its buffer", "statement": "build_prompt writes the disk name and the last component of the current directory with the colour codes into prompt[128] without leaving the array. (Refuted: the length is not checked; names above about 100 bytes overrun it. Proved: the text is right exactly when it fits.)", "quantifier": "every current directory", "why_tests_cant": "Needs long directory names.", "anchors": ["kernel/fpm_shell.c:build_prompt"]}
{"id": "C68", "title": "The shell runs the words typed", "statement": "For any keys typed that never meet a full line, including editing and history recall, the shell passes to fpm_exec exactly the words of the line's UTF-8 text by the quoting rules, reports quoting errors, ignores empty lines, leaves on exit, and keeps the line as history; nothing is accessed outside the arrays.", "quantifier": "every sequence of keys and lines, every initial memory content", "why_tests_cant": "Unbounded interaction of editor, encoding, quoting and history.", "anchors": ["kernel/fpm_shell.c:fpm_shell", "kernel/fpm_editline.c", "kernel/fpm_tokenize.c", "kernel/fpm_strlcpy.c"]}
{"id": "C69", "title": "The long listing is aligned and its fields are right", "statement": "dir prints for every visible entry, in order, its attributes, its size (or - for a directory) with commas adjusted to the width of the biggest size, its date and time taken from the FAT time stamp, and its name; everything before the name has the same width in every line, and the total is the sum of sizes rounded up to kilobytes.", "quantifier": "every list of entries with total below 2^64 kilobytes", "why_tests_cant": "All sizes and time stamps at once; alignment depends on the biggest entry.", "anchors": ["kernel/cmd/cmd_dir.c:print_long", "kernel/cmd/cmd_dir.c:print_time"]}
{"id": "C70", "title": "ls stays within its file information buffer", "statement": "ls copies a name that f_stat calls invalid into info.fname without exceeding it. (Refuted: strcpy into 256 bytes from an argument of any length.)", "quantifier": "every argument", "why_tests_cant": "Needs an invalid name of more than 255 bytes and memory checking.", "anchors": ["kernel/cmd/cmd_dir.c:list_append_name"]}
{"id": "C71", "title": "ls lists the directory it was given", "statement": "ls opens the directory named by its argument. (Refuted: for a/b it opens b in the current directory, because f_stat returns only the last component.)", "quantifier": "every argument", "why_tests_cant": "Tests use names in the current directory.", "anchors": ["kernel/cmd/cmd_dir.c:show_directories"]}
{"id": "C72", "title": "ls -R visits the whole tree once, in order", "statement": "ls -R opens exactly the directories at or below the current one, each parent before its children and siblings in listing order, with the right paths, and its path buffer is never exceeded.", "quantifier": "every finite directory tree with names up to 255 bytes", "why_tests_cant": "Unbounded trees and path lengths.", "anchors": ["kernel/cmd/cmd_dir.c:show_dir", "kernel/cmd/cmd_dir.c:show_directories"]}
{"id": "C73", "title": "ls -R respects hidden directories", "statement": "Without -a, ls -R does not show hidden directories. (Refuted: it prints their path and contents.)", "quantifier": "every tree", "why_tests_cant": "Combination of attributes and recursion.", "anchors": ["kernel/cmd/cmd_dir.c:show_directories"]}
{"id": "C74", "title": "f_gets keeps to its buffer and returns text unchanged", "statement": "For every file and every buffer of at least 5 bytes f_gets stores only inside the buffer, returns nothing only at the end of the file, and splits UTF-8 text into pieces at character boundaries without changing it.", "quantifier": "every file content and buffer size", "why_tests_cant": "All byte sequences and all positions of the buffer end.", "anchors": ["fatfs/fatfs.c:f_gets"]}
{"id": "C75", "title": "Upper case conversion of names is sound", "statement": "ff_wtoupper never reads outside its compressed tables, converts ASCII letters to capitals, is idempotent, never turns a non-ASCII character into an ASCII one or a surrogate, and leaves surrogate pairs alone; so case-insensitive comparison of names is an equivalence that cannot confuse a name with an ASCII wildcard, separator or terminator. Every other letter of the tables becomes exactly its Unicode capital, and the two letters of a case pair become the same.", "quantifier": "every 16-bit code and every pair", "why_tests_cant": "65536 codes through a compressed table walk with variable block formats; a wrong block length shows only at a few codes.", "anchors": ["fatfs/unicode.c:ff_wtoupper"]}
{"id": "C76", "title": "A directory table behaves as a list of files", "statement": "For every directory whose table holds a list of files (with or without long names), deleted entries and volume labels: a search answers exactly the first file that has the name, with its entry and the first entry of its block, or that there is none; reading the directory lists every file except dot entries once, in order, with its exact long name; creating an entry adds exactly one file in place of free entries, with the given or a fresh numbered short name, and leaves all other files as they are; it is refused only when no run of free entries exists and the table cannot grow, or all 99 numbers are taken; removing deletes exactly one file. On a table of arbitrary bytes searching and reading still end inside the table and the name buffer.", "quantifier": "all tables, all lists of files, all long names of 1 to 255 units, all short names, all stale buffer contents", "why_tests_cant": "The states of a directory (any mixture of names, holes and stretches up to 65536 entries) are unbounded for testing; a wrong checksum, order or block start shows only for particular neighbours.", "anchors": ["fatfs/fatfs.c:dir_find", "fatfs/fatfs.c:dir_read", "fatfs/fatfs.c:dir_register", "fatfs/fatfs.c:dir_alloc", "fatfs/fatfs.c:dir_remove", "fatfs/fatfs.c:gen_numname"]}
{"id": "C77", "title": "Names are converted to their directory form exactly", "statement": "For every name of a path (1 to 255 UTF-16 units of Unicode characters without control characters and the reserved ones), whatever follows it, create_name keeps the long name but for trailing spaces and dots, gives the 8.3 name in capitals without LOSS exactly if the name has 8.3 form (body of 1 to 8, extension of up to 3 allowed ASCII characters), asks for a long name entry exactly if it is needed, records the case of body and extension, and leaves the rest of the path behind all separators. Names which are too long, reserved characters, bad UTF-8 and empty names are rejected; on arbitrary bytes it stays inside the path and its buffer. Two names of 8.3 form have the same short name if and only if they differ in case only.", "quantifier": "all names, all rests of paths, all byte strings, all stale buffers", "why_tests_cant": "Unbounded names with any position of dots, spaces, lower case letters and wide characters; the interactions (leading dots, blanks before the extension, body of 8 characters) are many.", "anchors": ["fatfs/fatfs.c:create_name", "fatfs/fatfs.c:tchar2uni"]}
{"id": "C78", "title": "No two files of a directory get the same name", "statement": "In a directory in which no two files share a short or a long name (case ignored), at most one file answers to any given name; creating a file whose name is not found keeps the names distinct, including the generated short names, and the new file is found by its name however the name is written again; removing a file keeps them distinct and leaves the other files.", "quantifier": "all directories with distinct names, all names, any sequence of creating and removing", "why_tests_cant": "A clash between a generated short name and an existing name appears only for particular combinations of files.", "anchors": ["fatfs/fatfs.c:dir_register", "fatfs/fatfs.c:create_name", "fatfs/fatfs.c:gen_numname", "fatfs/fatfs.c:dir_find"]}
{"id": "C79", "title": "Files are listed under the names they were made with", "statement": "A file made under a name of up to 255 UTF-8 bytes is listed with exactly this name, in its own case, whether it has a long name entry or the case flags of the short one. For arbitrary bytes in the directory the listing stays inside the name buffers and gives names of 1 to 255 and up to 12 bytes.", "quantifier": "all names, all directory bytes", "why_tests_cant": "All combinations of case, character widths and lengths.", "anchors": ["fatfs/fatfs.c:get_fileinfo", "fatfs/fatfs.c:put_utf"]}
{"id": "C80", "title": "Every path leads to one place", "statement": "On a volume that holds a directory tree, every text of characters is a path that resolves to exactly one target: a directory, a dot entry, a file, a free name in a directory, a missing directory on the way, or an invalid name. Separators may be repeated and mixed, names are compared without case and with their short aliases, trailing spaces and dots are dropped, . and .. lead to the directory and its parent. f_opendir opens that directory, or reports FR_NO_PATH or FR_INVALID_NAME.", "quantifier": "all trees, all paths, all contents of the name buffer", "why_tests_cant": "The ways to write a path and the trees it is looked up in are unbounded.", "anchors": ["fatfs/fatfs.c:follow_path", "fatfs/fatfs.c:create_name", "fatfs/fatfs.c:dir_find", "fatfs/fatfs.c:f_opendir"]}
{"id": "C81", "title": "Operations change the directory tree as they say", "statement": "On a volume that holds a tree, f_open (all modes), writing and closing a file, f_unlink, f_mkdir, f_rename, f_chmod, f_utime and f_chdir answer with the code that the target of the path calls for and change the tree accordingly: one entry added, removed, replaced or moved, with the name given, the right attribute, times, size and first cluster; every other file and directory stays as it is, read only files, non-empty directories and the current directory are not removed, and a failing operation leaves the tree. The volume holds the new tree afterwards: no cluster is shared or lost and the dot entries point to the right directories.", "quantifier": "all trees on FAT12/16 and FAT32 volumes, all paths, all operations but the move of a directory into itself", "why_tests_cant": "Tests check a few trees; shared clusters, wrong parents or dropped neighbours appear in particular trees only.", "anchors": ["fatfs/fatfs.c:f_open", "fatfs/fatfs.c:f_unlink", "fatfs/fatfs.c:f_mkdir", "fatfs/fatfs.c:f_rename", "fatfs/fatfs.c:f_chmod", "fatfs/fatfs.c:f_utime", "fatfs/fatfs.c:f_chdir", "fatfs/fatfs.c:f_sync"]}
{"id": "C82", "title": "A volume stays a tree under any history", "statement": "From a newly formatted volume on, any sequence of operations runs without undefined behaviour, each answering and changing the tree as described for C81, and the volume holds a tree at the end; when all files and directories are removed all clusters are free again but for those of the root.", "quantifier": "all formatted volumes, all sequences of operations", "why_tests_cant": "Corruption shows up only after particular histories.", "anchors": ["fatfs/fatfs.c:f_open", "fatfs/fatfs.c:f_unlink", "fatfs/fatfs.c:f_mkdir", "fatfs/fatfs.c:f_rename"]}
{"id": "C83", "title": "A directory has room while clusters are free", "statement": "In a directory that can be stretched, with at least two free clusters and below the limit of 65536 entries, creating a file under a new name is refused only if all 99 numbered short names for it are taken. A refused operation leaves the free clusters.", "quantifier": "all trees, all names", "why_tests_cant": "Depends on where free entries are in the directory and how many the name needs.", "anchors": ["fatfs/fatfs.c:dir_alloc", "fatfs/fatfs.c:dir_next", "fatfs/fatfs.c:dir_register"]}
{"id": "C84", "title": "Listings of directories are complete", "statement": "Reading a directory of the volume to its end gives every file and subdirectory of it once, in the order of the table, with its entry and (up to 255 bytes) the name it was made with; a path with this name leads to it.", "quantifier": "all trees, all directories, all contents of the name buffer", "why_tests_cant": "All mixtures of long and short names, deleted entries and sizes.", "anchors": ["fatfs/fatfs.c:f_readdir", "fatfs/fatfs.c:dir_read", "fatfs/fatfs.c:get_fileinfo"]}
{"id": "C85", "title": "f_stat describes the file the path leads to", "statement": "f_stat answers FR_OK with the directory entry and the name of the file or directory that the path resolves to, FR_NO_FILE for a free name, FR_NO_PATH if a directory on the way is missing, and FR_INVALID_NAME for bad names and the root.", "quantifier": "all trees, all paths", "why_tests_cant": "Unbounded paths and trees.", "anchors": ["fatfs/fatfs.c:f_stat", "fatfs/fatfs.c:get_fileinfo"]}
{"id": "C86", "title": "f_getcwd gives a path to the current directory", "statement": "If all directory names have at most 255 bytes, f_getcwd writes the drive name, a colon and a path with a NUL to the buffer, and nothing outside of it; the path resolves to the current directory. If the buffer is too small, and only then, it answers FR_NOT_ENOUGH_CORE and the buffer is the empty string.", "quantifier": "all trees, all current directories, all buffer sizes from 1", "why_tests_cant": "Any depth, any lengths of names, every buffer size around the limit.", "anchors": ["fatfs/fatfs.c:f_getcwd"]}
{"id": "C87", "title": "f_rename never destroys the tree", "statement": "After a successful f_rename of a directory all directories can be reached from the root.", "quantifier": "all trees, all pairs of paths", "why_tests_cant": "The failing case is a target inside of the moved directory.", "anchors": ["fatfs/fatfs.c:f_rename"]}
{"id": "C88", "title": "A formatted drive can be mounted and is laid out correctly", "statement": "If f_mkfs answers FR_OK, mounting the drive succeeds, whatever the window contained. The volume starts at sector 0 (FM_SFD) or 63 and reaches to the end of the drive; boot record, reserved sectors, FAT, root directory and clusters follow one another without overlap; the FAT has an entry for every cluster; the clusters fill the drive; the kind of FAT follows from their number and is one of those asked for; with a partition table, this has exactly one entry with start, size and type of the volume.", "quantifier": "all drive sizes below 2^32-1 sectors, all sector sizes and options, all erase block sizes up to 16, all previous contents, all drives (any set of bad sectors)", "why_tests_cant": "The layout depends on the size through several thresholds and divisions; each size is different.", "anchors": ["fatfs/fatfs.c:f_mkfs", "fatfs/fatfs.c:create_partition", "fatfs/fatfs.c:mount_volume"]}
{"id": "C89", "title": "A formatted drive is empty", "statement": "After a successful f_mkfs the root directory is all zero, all clusters but the one of a FAT32 root directory are free, the first two FAT entries are the media byte and the end mark, and the free count, from FSINFO or by f_statfs, is the number of free clusters.", "quantifier": "all drives, options and previous contents as in C88", "why_tests_cant": "Old contents may shine through in a sector nobody looks at; the number of sectors cleared depends on size and buffer.", "anchors": ["fatfs/fatfs.c:f_mkfs", "fatfs/fatfs.c:f_statfs"]}
{"id": "C90", "title": "What f_mkfs does not touch", "statement": "If f_mkfs refuses (not ready, protected, too small, no suitable layout, bad option), the drive is unchanged. On success only the sectors from the boot record to the root directory and the partition table are written. If the drive fails, sectors before and behind the volume and the partition table are unchanged. f_mkfs ends, and stays within its work buffer.", "quantifier": "all drives, options, buffer sizes", "why_tests_cant": "All sizes and all points of failure.", "anchors": ["fatfs/fatfs.c:f_mkfs", "fatfs/fatfs.c:create_partition"]}
{"id": "C91", "title": "Which volumes can be made", "statement": "On a drive without faults f_mkfs succeeds for every volume from 128 sectors if FAT and FAT32 are allowed; with FM_FAT alone exactly up to 65525 clusters of 128 sectors, with FM_FAT32 alone exactly from 65526 clusters of one sector. The search for a cluster size never gets stuck in between.", "quantifier": "all sizes, sector sizes and options", "why_tests_cant": "A gap of a few sizes near a threshold would go unnoticed; there are 2^32 sizes.", "anchors": ["fatfs/fatfs.c:f_mkfs"]}
{"id": "C92", "title": "A mounted volume is sound, whatever the drive contains", "statement": "If mount_volume accepts a drive, the geometry is that of the boot record (Microsoft FAT specification), the FAT is large enough for all clusters, boot record, FATs, root directory and clusters do not overlap and lie within the volume. Mounting writes nothing.", "quantifier": "all drive contents", "why_tests_cant": "Any bytes may be on the medium; crafted records are the interesting ones.", "anchors": ["fatfs/fatfs.c:mount_volume", "fatfs/fatfs.c:find_volume", "fatfs/fatfs.c:check_fs"]}
{"id": "C93", "title": "f_statfs counts the free clusters", "statement": "On a volume in order f_statfs answers the number of clusters whose FAT entry is zero as free and available, the kind of FAT and the cluster size; it changes no sector, and the count is kept for the next time. The number of blocks is the number of clusters of the volume.", "quantifier": "all volumes and files on them", "why_tests_cant": "The scan crosses sectors at different places for each kind of FAT and sector size.", "anchors": ["fatfs/fatfs.c:f_statfs"]}
{"id": "C94", "title": "rm removes what it is told to and nothing else", "statement": "After rm -r of a directory, answered with y, the directory is gone with all files and directories below it, all other files and directories are as they were, every cluster of the removed ones is free, and the table of open directories is as before. If something below is read only, is the current directory, or lies deeper than places are left in the table of open directories, an error is shown; then of each directory below only the first files are gone, no read only file is, and the volume is in order. A file goes with -f or after y, unless it is read only. Without an answer, or a directory without -r, nothing changes.", "quantifier": "all volumes in order, trees, names, paths without .., options and answers; names of at most 255 UTF-8 bytes", "why_tests_cant": "The directory is edited while it is read; trees and places of entries are unbounded.", "anchors": ["kernel/cmd/cmd_remove.c:remove_recursive", "kernel/cmd/cmd_remove.c:remove_file", "kernel/cmd/cmd_remove.c:remove_directory", "kernel/cmd/cmd_remove.c:remove", "kernel/cmd/cmd_remove.c:fpm_cmd_remove"]}
{"id": "C95", "title": "rm -v shows what was removed, rm -f does not ask", "statement": "With -v the paths shown are those of the removed files and directories. With -f no question is asked.", "quantifier": "all trees", "why_tests_cant": "The output depends on the last entry of each directory.", "anchors": ["kernel/cmd/cmd_remove.c:remove_recursive", "kernel/cmd/cmd_remove.c:remove_directory"]}
{"id": "C96", "title": "rm -r can remove any tree", "statement": "On a volume in order rm -r of a directory that has no read only files and is not in use removes it, or removes nothing.", "quantifier": "all trees", "why_tests_cant": "The depth of trees is unbounded.", "anchors": ["kernel/cmd/cmd_remove.c:remove_recursive", "fatfs/fatfs.c:inc_share"]}
{"id": "C97", "title": "mv moves a file or directory", "statement": "mv of a path to a directory puts the file there under the last component of the path, with its contents and, if it is a directory, all that is in it; mv to a name that is free gives it that name. All other files and directories are as they were. It is refused, and nothing is changed, only if the directory has no room for the name. The paths are shown with -v, or the error.", "quantifier": "all volumes in order, names, paths with a last component of at most 255 bytes, options; destinations not below the source", "why_tests_cant": "Paths, names and trees are unbounded.", "anchors": ["kernel/cmd/cmd_rename.c:rename_file", "kernel/cmd/cmd_rename.c:move_files_to_directory", "kernel/cmd/cmd_rename.c:fpm_cmd_rename"]}
{"id": "C98", "title": "mv replaces a file if allowed to", "statement": "mv onto an existing file replaces it with -f or after the question is answered with y; otherwise nothing changes.", "quantifier": "all volumes in order and names", "why_tests_cant": "Needs every combination of source and destination.", "anchors": ["kernel/cmd/cmd_rename.c:rename_file"]}
{"id": "C99", "title": "mv never loses files or writes out of bounds", "statement": "Whatever the arguments of mv, the volume stays in order and no access is out of bounds.", "quantifier": "all volumes in order and all arguments", "why_tests_cant": "Arguments are unbounded.", "anchors": ["kernel/cmd/cmd_rename.c:move_files_to_directory", "fatfs/fatfs.c:f_rename"]}
{"id": "C100", "title": "A search finds the files that match", "statement": "f_findfirst and then f_findnext report, each once and in order, the files of the directory whose names match the pattern, and then the end; a path that leads to no directory is an error.", "quantifier": "all volumes in order, paths and patterns", "why_tests_cant": "Directories and patterns are unbounded.", "anchors": ["fatfs/fatfs.c:f_findfirst", "fatfs/fatfs.c:f_findnext", "fatfs/fatfs.c:f_readdir"]}
{"id": "C101", "title": "Escapes in a printf format", "statement": "Every text has exactly one meaning as a format: \\a \\b \\f \\n \\r \\t \\v, up to three octal digits, any other character after a backslash stands for itself, a backslash at the end too. printf replaces the text by it in place, within its bytes.", "quantifier": "all texts", "why_tests_cant": "Texts are unbounded; octal runs end at three digits or at the first other byte.", "anchors": ["apps/printf/printf.c:escape"]}
{"id": "C102", "title": "printf shows what the format asks for", "statement": "Each conversion c s d i o u x e E f g G shows the next argument with its flags, width and precision (also taken from arguments by an asterisk), missing arguments count as zero or empty, %% shows %, other bytes show themselves; while arguments are left the format is used again; the exit code is 0.", "quantifier": "all formats of these pieces with no more than 62 bytes up to an integer conversion, all arguments that are numbers where numbers are needed", "why_tests_cant": "Formats, arguments and rounds are unbounded; the format is edited in place while it is read.", "anchors": ["apps/printf/printf.c:main", "apps/printf/printf.c:getlong", "apps/printf/printf.c:getint", "apps/printf/printf.c:mklong"]}
{"id": "C103", "title": "Arguments no conversion can take", "statement": "A format without conversions and with arguments is shown once, then a message, and the exit code is 1: printf does not loop for ever.", "quantifier": "all formats without %, all nonempty lists of arguments", "why_tests_cant": "Formats and arguments are unbounded.", "anchors": ["apps/printf/printf.c:main"]}
{"id": "C104", "title": "printf stays within its memory", "statement": "No format and no argument makes printf read or write outside its strings and buffers or pass a null pointer.", "quantifier": "all formats and arguments", "why_tests_cant": "Reads past the end of a string mostly go unnoticed.", "anchors": ["apps/printf/printf.c:main", "apps/printf/printf.c:mklong", "apps/printf/printf.c:getint"]}
{"id": "C105", "title": "A format with %% can be used again", "statement": "When arguments are left the format is used again from its start, also if it contains %%.", "quantifier": "all formats and arguments", "why_tests_cant": "The format is edited in place.", "anchors": ["apps/printf/printf.c:main"]}
{"id": "C106", "title": "%X shows capital letters", "statement": "The conversion X shows hexadecimal digits in capitals.", "quantifier": "all numbers", "why_tests_cant": "A test of small numbers sees only digits.", "anchors": ["apps/printf/printf.c:mklong"]}
{"id": "C107", "title": "f_puts writes the characters of its string", "statement": "f_puts appends to the file exactly the UTF-8 forms of the characters the bytes of its string stand for, leaving out bytes that belong to no character, and returns how many bytes it wrote; when the file does not take all of them the longest prefix it takes is written and the result is -1. f_putc writes an ASCII character, and nothing for any other byte.", "quantifier": "all strings of bytes, all free rooms, whether or not f_write reports an error", "why_tests_cant": "Whether a byte is written depends on the bytes around it and on where the 64-byte buffer happens to be emptied.", "anchors": ["fatfs/fatfs.c:f_puts", "fatfs/fatfs.c:f_putc", "fatfs/fatfs.c:putc_bfd", "fatfs/fatfs.c:putc_flush"]}
{"id": "C108", "title": "f_printf shows its arguments", "statement": "f_printf writes what f_puts would write for the format with every conversion replaced by its argument: an integer as the shortest numeral of its base, a string cut at the precision, padded with blanks or zeros to the width on the side the flag says; %c and other letters without padding.", "quantifier": "all formats of flags, widths, precisions (in digits or *), sizes and types, all arguments of the types asked for with widths not negative, %llb below 2^32", "why_tests_cant": "Flags, widths, precisions, sizes, types and values combine without bound.", "anchors": ["fatfs/fatfs.c:f_printf"]}
{"id": "C109", "title": "A floating point number fits its buffer", "statement": "ftoa stays within its buffer of 32 bytes and produces NaN, a signed INF or OV, or a number with exactly the digits of precision asked for after the point and, in E notation, one digit before it and an exponent of two digits.", "quantifier": "all doubles and precisions; refuted for zero in E notation with a precision of 26 or more", "why_tests_cant": "The check for overflow is skipped for one value only.", "anchors": ["fatfs/fatfs.c:ftoa"]}
{"id": "C110", "title": "Showing a floating point number ends", "statement": "f_printf returns for every double and precision.", "quantifier": "all doubles and precisions", "why_tests_cant": "The loops end for all ordinary numbers.", "anchors": ["fatfs/fatfs.c:ilog10", "fatfs/fatfs.c:ftoa"]}
{"id": "C111", "title": "A floating point number is shown in digits", "statement": "The characters of a finite number shown by f_printf are digits, a point, a sign and an exponent.", "quantifier": "all doubles and precisions", "why_tests_cant": "Only for few numbers does the error of rounding reach a digit.", "anchors": ["fatfs/fatfs.c:ftoa", "fatfs/fatfs.c:ilog10"]}
{"id": "C112", "title": "f_printf pads as printf of C does", "statement": "Zeros for padding come after the sign, a negative width for * means padding on the right, and all binary digits of a long long are shown.", "quantifier": "all formats and arguments", "why_tests_cant": "The cases are not in the usual formats.", "anchors": ["fatfs/fatfs.c:f_printf"]}
{"id": "C113", "title": "f_expand gives a file consecutive free clusters", "statement": "If f_expand succeeds with opt set, the empty file has a block of consecutive clusters which were free, just enough for its new size, and no other entry of the FAT changes; without opt, only the place where the next search begins moves; if it refuses, nothing changes and there is a reason. Other open files are never affected.", "quantifier": "all volumes, sets of open files, sizes and search positions", "why_tests_cant": "It depends on the pattern of free clusters and where the search begins.", "anchors": ["fatfs/fatfs.c:f_expand"]}
{"id": "C114", "title": "f_expand damages no volume", "statement": "f_expand finds a free block if there is one that does not cross the search position, or it leaves the volume as it was.", "quantifier": "all volumes and sizes", "why_tests_cant": "The search has to start behind the middle of the volume.", "anchors": ["fatfs/fatfs.c:f_expand"]}
{"id": "C115", "title": "f_expand finds a block of free clusters if there is one", "statement": "f_expand does not answer FR_DENIED when enough consecutive clusters are free.", "quantifier": "all volumes and sizes", "why_tests_cant": "The only free block has to contain the place where the search begins.", "anchors": ["fatfs/fatfs.c:f_expand"]}
{"id": "C116", "title": "The cluster link map describes the file", "statement": "f_lseek with CREATE_LINKMAP fills the table with the maximal runs of consecutive clusters of the file, in order, and the final 0, using exactly 2 items per run and 2 more; a table that is too small gets the size needed and is not written beyond its stated size; the file and the volume stay as they are.", "quantifier": "all volumes, files, fragmentations and table sizes", "why_tests_cant": "There are many ways a file can be fragmented and many table sizes.", "anchors": ["fatfs/fatfs.c:f_lseek"]}
{"id": "C117", "title": "Seeking and reading with a link map agree with the file", "statement": "With a link map, f_lseek sets the position, clipped to the length of the file, and f_read delivers the bytes from there on and moves the position behind them; other open files and the rest of the volume do not change.", "quantifier": "all volumes, open files, positions and lengths", "why_tests_cant": "Errors show only at certain positions relative to sectors, clusters and fragments.", "anchors": ["fatfs/fatfs.c:f_lseek", "fatfs/fatfs.c:f_read", "fatfs/fatfs.c:clmt_clust"]}
{"id": "C118", "title": "f_forward passes on the bytes of the file in order", "statement": "Whatever number of bytes the stream takes in each round, the bytes it has taken are those of the file from the position on, and the position moves by that number; the transfer ends when all bytes are taken or the stream is busy, and fails exactly when the stream takes nothing without being busy.", "quantifier": "all files, positions, lengths and behaviours of the stream", "why_tests_cant": "The behaviours of the stream and their position relative to sectors cannot be enumerated.", "anchors": ["fatfs/fatfs.c:f_forward"]}
{"id": "C119", "title": "The volume label set is the label read back, and setting it touches no file", "statement": "f_setlabel accepts a text of at most eleven printable ASCII characters, none of them one of the seventeen forbidden ones, and refuses every other one (longer, with any other character, with a wrong UTF-8 sequence) with FR_INVALID_NAME, changing nothing. If accepted, the first label entry of the root directory gets the text in capitals and without trailing spaces, keeping its other bytes; an empty text deletes the entry; without a label entry a new one is made in the place of a free entry, and FR_DENIED is answered only if there is no room. All files stay as they are and are listed and found as before. f_getlabel then gives exactly this text.", "quantifier": "For every root directory (any number of files, long names, deleted entries), every string and every buffer of 23 bytes or more.", "why_tests_cant": "The outcome depends on the position of the label among the entries, on free entries and on each character of the text; tests try a few directories and labels.", "anchors": ["fatfs/fatfs.c:f_setlabel", "fatfs/fatfs.c:f_getlabel", "fatfs/fatfs.c:dir_read"]}
{"id": "C120", "title": "Reading the label of any volume is safe, and its serial number is the one given at formatting", "statement": "Whatever bytes the root directory contains, f_getlabel ends, stays within the directory, and stores at most 22 bytes and a NUL, so the buffer of the command vol is large enough. After f_mkfs the serial number given is the number of sectors of the volume plus the time of formatting, modulo 2^32.", "quantifier": "For every content of the root directory; for every drive, content, options and time of formatting.", "why_tests_cant": "Arbitrary directory contents, of which the longest label is made of characters no FatFs call can store; arbitrary drives.", "anchors": ["fatfs/fatfs.c:f_getlabel", "kernel/cmd/cmd_vol.c:print_volume_info", "fatfs/fatfs.c:f_mkfs"]}
{"id": "C121", "title": "The command date sets and shows exactly the date given", "statement": "date with a text of the form M/D/Y (each a decimal number, perhaps with blanks before it and a sign, and anything behind the third) sets the clock to that month, day and year if they are in 1..12, 1..31 and 2000..4095, keeps the time of day, and gives the day of the week of the calendar; with any other text it prints an error and leaves the clock alone. date -t prints MM/DD/YYYY of the clock with leading zeros, date prints the name of the day, the date and the year in four digits; showing changes nothing.", "quantifier": "Every state of the clock and every text that is not an option and has no number of more than nine digits.", "why_tests_cant": "Unbounded texts (signs, blanks, missing or extra parts) and every date; tests try a few.", "anchors": ["kernel/cmd/cmd_date.c:fpm_cmd_date", "kernel/cmd/cmd_date.c:set_date", "pico/rtc_pico.c:fpm_set_datetime"]}
{"id": "C122", "title": "The command time sets and shows exactly the time given", "statement": "time with a text of the form h:m:s sets the clock to that time if the numbers are in 0..23, 0..59 and 0..59, keeping the date; with any other text it prints an error and leaves the clock alone. time -t prints hh:mm:ss; time prints the hour on a dial of twelve, 12 at midnight and noon, with AM before noon and PM after.", "quantifier": "Every state of the clock and every text that is not an option and has no number of more than nine digits.", "why_tests_cant": "Every text and every time of the day; the cases around midnight and noon are the ones tests forget.", "anchors": ["kernel/cmd/cmd_time.c:fpm_cmd_time", "kernel/cmd/cmd_time.c:set_time", "pico/rtc_pico.c:fpm_set_datetime"]}
{"id": "C123", "title": "Files are stamped with the time of the clock", "statement": "The stamp that a file gets while the clock is in the years 1980 to 2107 is listed by dir -l as the date, hour and minute of the clock; of two stamps the smaller is the one of the earlier time, and they are equal only within the same pair of seconds. For the later years, which the command date accepts, this is false: the file is listed with a year that is a multiple of 128 years earlier.", "quantifier": "Every state, and every two states, of the clock.", "why_tests_cant": "Every combination of six packed bit fields; wrap-around happens only with dates far away.", "anchors": ["fatfs/fatfs.c:get_fattime", "kernel/cmd/cmd_dir.c:print_time", "kernel/cmd/cmd_date.c:set_date"]}
{"id": "C124", "title": "Every date that the command date accepts exists and is set", "statement": "If date prints no error, the date given is one of the calendar and the clock shows it afterwards. This is false: days that do not exist, as 30 February, are set; and a year of 4096 to 9999 is accepted without an error while the clock keeps its date.", "quantifier": "Every state of the clock and every accepted text.", "why_tests_cant": "The dates concerned are a small part of those accepted.", "anchors": ["kernel/cmd/cmd_date.c:set_date", "pico/rtc_pico.c:fpm_set_datetime"]}
{"id": "C125", "title": "cp of one file asks before it overwrites, and never harms the file itself", "statement": "Copying file a onto an existing file b without -f asks; after y or Y, b has the contents of a and all else is as before; after any other answer nothing at all is changed and this is said. Copying a file onto itself, under any two spellings of its path and with any errors of the device, leaves the file system as it was. A directory without -r is refused and nothing changes. In all cases every file opened is closed again.", "quantifier": "Every file system, contents, paths, options and answers; for the copy onto itself every pattern of device errors.", "why_tests_cant": "Contents, trees, spellings and error patterns are unlimited.", "anchors": ["kernel/cmd/cmd_copy.c:copy_file", "kernel/cmd/cmd_copy.c:copy_object", "kernel/cmd/cmd_copy.c:fpm_cmd_copy"]}
{"id": "C126", "title": "cp -r copies whole trees exactly", "statement": "On a device without errors, cp of a file or (with -r) a directory to a name, of foo/ into bar/, or of any number of sources into a directory, puts a copy of everything in each source at its place in the destination, with the same contents and depth; every other file of the volume is as before; nothing is shown except, with -v, the names of the files copied; all files are closed. Source and destination are apart, kinds do not clash, no question is due, and the tree is not deeper than the table of open files allows.", "quantifier": "Every file system, tree, file length, path spelling, options and number of sources.", "why_tests_cant": "Trees, file sizes and names are unlimited.", "anchors": ["kernel/cmd/cmd_copy.c:copy_recursive", "kernel/cmd/cmd_copy.c:copy_to_directory", "kernel/cmd/cmd_copy.c:copy_file"]}
{"id": "C127", "title": "Whatever fails, cp changes nothing outside of its destination", "statement": "With any pattern of device errors and full disks, any options and any answers, cp ends, does nothing undefined, leaves everything outside of the destination as it was, removes no file or directory inside of it, and leaves no file open except files of the destination.", "quantifier": "Every pattern of failing calls, file system, list of sources without slash at the end (existing or not), options and answers.", "why_tests_cant": "Each call may fail in each state; the combinations are unlimited.", "anchors": ["kernel/cmd/cmd_copy.c:copy_file", "kernel/cmd/cmd_copy.c:copy_recursive", "kernel/cmd/cmd_copy.c:fpm_cmd_copy"]}
{"id": "C128", "title": "A slash behind the source of cp copies its contents into the directory", "statement": "With bar a directory, cp -r foo/ bar copies foo/a to bar/a, as the table in the source says, also after other sources. This is false: if bar is written without a slash the name of the destination has no NUL and what follows is undefined; if another source came before, the contents go to the place of that one. An empty source name makes cp read the byte before it.", "quantifier": "Every file system and list of sources.", "why_tests_cant": "What an unterminated string does depends on what the stack held before.", "anchors": ["kernel/cmd/cmd_copy.c:copy_to_directory"]}
{"id": "C129", "title": "cp reports every copy that is not complete", "statement": "If something of a source is missing at the destination, cp shows a message. This is false: an error while the directory is read ends the loop without a message, and an error while the destination file is closed (when its size is written) is ignored; with -v the file is even reported as copied, and its place in the table of open files is lost.", "quantifier": "Every file system and pattern of device errors.", "why_tests_cant": "The errors must come at certain calls.", "anchors": ["kernel/cmd/cmd_copy.c:copy_recursive", "kernel/cmd/cmd_copy.c:copy_file"]}
{"id": "C130", "title": "cp -r of a directory into itself is refused or is one copy", "statement": "cp -r a a/b makes one copy of a in a/b, or is refused. This is false: the new directory is found and copied again, level after level, until no more directories can be opened.", "quantifier": "Every file system.", "why_tests_cant": "Tests of cp use separate directories.", "anchors": ["kernel/cmd/cmd_copy.c:copy_recursive"]}
{"id": "C131", "title": "echo writes its words with one space between them", "statement": "echo writes its arguments in order with exactly one space between two of them, and then CR LF; -n, at any place among the words and any number of times, leaves out the CR LF and nothing else.", "quantifier": "Every list of words (any bytes, a word not beginning with - or being just -), with -n, -nn... anywhere.", "why_tests_cant": "Lists of words and places of -n are unlimited.", "anchors": ["kernel/cmd/cmd_echo.c:fpm_cmd_echo", "kernel/fpm_getopt.c:fpm_getopt"]}
{"id": "C132", "title": "gpio acts on exactly the pins it is given", "statement": "For every command line of documented words (info, out, in, pu, pd, NUM, NUM-NUM, NUM=NUM, NUM-NUM=NUM with numbers written in decimal, octal or hexadecimal and pins below 30), gpio does what the words ask in their order: numbers alone print the levels of exactly those pins in order; =NUM sets the levels of exactly those pins to 1 if the number is not 0, and changes nothing else of them; after out, in, pu, pd exactly those pins get that direction, level 0, pulls and function; all other pins are untouched; info, or no words, prints the table and changes nothing.", "quantifier": "Every state of the pins and their surroundings, every sequence of documented words of any length and spelling of numbers.", "why_tests_cant": "Sequences and spellings are unlimited; on the board a wrong pin is changed unnoticed.", "anchors": ["apps/gpio/gpio.c:main", "apps/gpio/gpio.c:get_set", "apps/gpio/gpio.c:configure", "apps/gpio/gpio.c:show_all", "kernel/fpm_strtol.c:fpm_strtoul"]}
{"id": "C133", "title": "gpio refuses what it cannot understand", "statement": "A word that is none of the documented ones changes no pin; NUM=value changes only pin NUM; a pin that does not exist is refused. All three are false: a text without digits is the number 0, so foo=1 sets GPIO0; a dash in the value is taken for a range of pins, so 1=0-5 clears GPIO1 to GPIO5; a pin of 32 or more is shifted out of the register, which is undefined.", "quantifier": "Every word and state.", "why_tests_cant": "Wrong inputs are unlimited.", "anchors": ["apps/gpio/gpio.c:get_set", "apps/gpio/gpio.c:configure", "kernel/fpm_strtol.c:fpm_strtoul"]}
{"id": "C134", "title": "format formats only the drive named, and only after a yes", "statement": "format with one argument naming a drive (flash:, sd:, 0:, 1: in any case, or an empty name for the current drive) shows the drive and its disk, asks, and calls f_mkfs exactly once, for that drive with its own format, if the line entered begins with y or Y, and never otherwise (also not while the line is not yet entered). Any other argument is refused by its name, none or several give the usage text; nothing is formatted.", "quantifier": "Every argument list, current drive, disk, sequence of up to 31 editing keys before return, and former stack contents.", "why_tests_cant": "Arguments and editing sequences are unlimited, and a mistake destroys a disk.", "anchors": ["kernel/cmd/cmd_format.c:fpm_cmd_format", "kernel/cmd/cmd_format.c:format_drive", "kernel/cmd/cmd_format.c:find_drive_unit", "kernel/fpm_editline.c:fpm_editline"]}
{"id": "C135", "title": "The reply to a question fits its buffer", "statement": "Whatever is typed at the question of format stays in the array for the reply. This is false: the array has 32 characters but is passed as 64, and the 32nd character typed is stored behind it.", "quantifier": "Every sequence of keys.", "why_tests_cant": "Replies in tests are one letter.", "anchors": ["kernel/cmd/cmd_format.c:format_drive", "kernel/fpm_editline.c:fpm_editline"]}
{"id": "C136", "title": "mount shows the true sizes", "statement": "For every mounted volume the row of mount shows drive, type, the total, used and free space in kbytes (rounded down) and the part used in percent rounded to the nearest integer; no number overflows. A drive that is not mounted is shown as ---.", "quantifier": "Every volume below 4 Tbytes with clusters of 512 bytes or a power of two of kbytes and any number of free clusters.", "why_tests_cant": "Sizes are too many.", "anchors": ["kernel/cmd/cmd_mount.c:show", "kernel/cmd/cmd_mount.c:blk_to_kbytes"]}
{"id": "C137", "title": "Sizes of disks and memory are shown correctly", "statement": "vol and format show the size of a disk in Mbytes with one decimal, which is the true size rounded down to a tenth. The program free shows the number of bytes in decimal with a comma before the last three digits if it has more than three.", "quantifier": "Every disk size below 2^52 bytes; every memory size below 1000000 bytes.", "why_tests_cant": "Sizes are too many; leading zeros and carries are special cases.", "anchors": ["kernel/cmd/cmd_vol.c:print_volume_info", "kernel/cmd/cmd_format.c:format_drive", "apps/free/free.c:print_value"]}
{"id": "C138", "title": "vol -t leaves nothing behind", "statement": "Without errors, vol -t writes as many whole Mbytes as are free, at most 8, in blocks of 4 kbytes, reads the same number of blocks, closes the file and removes it. The same after an error, that the file is closed and removed, is false: after a failed write, rewind or read the file stays on the disk and open, and a place in the table of open files is lost.", "quantifier": "Every volume and pattern of failing calls.", "why_tests_cant": "The errors must come at certain calls.", "anchors": ["kernel/cmd/cmd_vol.c:test_speed"]}
{"id": "C139", "title": "The exFAT allocation bitmap is searched and marked exactly", "statement": "The search for one cluster returns the first free cluster from the given one on, going round at the end of the volume, and 0 only if no cluster is free; the search for a block of n clusters returns the first such block in this order that ends before the start again. Searching changes nothing on the disk. Marking n clusters sets (or clears) exactly their bits, or stops with FR_INT_ERR at the first that already has the value; the FAT and all other sectors stay as they are.", "quantifier": "Every geometry with sectors of 512 to 4096 bytes, every number of clusters up to 2^31 - 3, every bitmap, state of the sector window, start cluster and n.", "why_tests_cant": "Byte, sector and volume boundaries combine with arbitrary bitmaps.", "anchors": ["fatfs/fatfs.c:find_bitmap", "fatfs/fatfs.c:change_bitmap"]}
{"id": "C140", "title": "f_expand on exFAT allocates free clusters of the volume", "statement": "If the first or last cluster of the volume is in use and the size does not exceed the volume, f_expand gives the file a block of clusters which exist and were free, marks exactly these, or returns FR_DENIED and changes nothing. In general three claims are false: that the clusters exist (a run from the last cluster to the first counts as contiguous, so the file gets clusters behind the end of the volume), that FR_DENIED means that there is no such block (one around the start of the search is not seen), and that the size set does not exceed the volume (the number of clusters is cut to 32 bits).", "quantifier": "Every exFAT volume, bitmap, last allocated cluster and size.", "why_tests_cant": "The failing states need free clusters at both ends of the volume or sizes of Tbytes.", "anchors": ["fatfs/fatfs.c:f_expand", "fatfs/fatfs.c:find_bitmap", "fatfs/fatfs.c:change_bitmap"]}
{"id": "C141", "title": "f_statfs on exFAT counts the free clusters", "statement": "The number of free clusters computed from the bitmap is exactly the number of clusters of the volume whose bit is clear; bits behind the last cluster do not count, and nothing changes.", "quantifier": "Every exFAT geometry and bitmap.", "why_tests_cant": "The last byte of the bitmap is used in part only; bitmaps are arbitrary.", "anchors": ["fatfs/fatfs.c:f_statfs"]}
{"id": "C142", "title": "Files on exFAT keep their clusters", "statement": "After any sequence of appending a cluster, seeking, f_sync, closing and reopening, truncating to nothing and truncating behind a cluster, on any number of files, each file has exactly the clusters it was given and kept, in this order (f_lseek leads to cluster number k of this list), whether they are contiguous, fragmented while written, or chained on the FAT; no cluster belongs to two files or to a file and to the rest of the volume; exactly these clusters are marked; a new cluster is one that was free and none is given only if the volume is full; the count of free clusters is right; no other sector and no entry of other clusters changes. On a volume with the largest number of clusters (2^31 - 3) it is false that truncating frees all clusters: the last one stays in use.", "quantifier": "Every exFAT geometry, number of files, initial state with correct marks, and every sequence of operations.", "why_tests_cant": "The three representations of a chain and their transitions depend on the whole history of all files.", "anchors": ["fatfs/fatfs.c:get_fat", "fatfs/fatfs.c:put_fat", "fatfs/fatfs.c:fill_first_frag", "fatfs/fatfs.c:fill_last_frag", "fatfs/fatfs.c:remove_chain", "fatfs/fatfs.c:create_chain", "fatfs/fatfs.c:f_lseek", "fatfs/fatfs.c:f_truncate", "fatfs/fatfs.c:f_sync", "fatfs/fatfs.c:init_alloc_info"]}
{"id": "C143", "title": "The directory entries of a file on exFAT come back as written", "statement": "The entries made for a new file (create_xdir, then the fields set by f_open, f_sync and f_truncate, then store_xdir) form a valid set of the exFAT specification at the place chosen: file entry, stream entry and one name entry for each 15 characters, with the right checksum. No other entry of the directory changes. Loading them gives the same attribute, flags, first cluster, size and time stamp, whatever was in the buffer; and dir_find takes them for the file searched exactly when the name searched equals the file's up to upper and lower case.", "quantifier": "Every directory with room for the set, every name of 1 to 255 units of UTF-16, all values of the fields, every prior content of the buffers and every name searched.", "why_tests_cant": "Names cross entry boundaries at any length; the hash and checksum depend on every byte.", "anchors": ["fatfs/fatfs.c:create_xdir", "fatfs/fatfs.c:store_xdir", "fatfs/fatfs.c:load_xdir", "fatfs/fatfs.c:xdir_sum", "fatfs/fatfs.c:xname_sum", "fatfs/fatfs.c:dir_find", "fatfs/fatfs.c:init_alloc_info", "fatfs/fatfs.c:get_fileinfo"]}
{"id": "C144", "title": "Damaged directory entries on exFAT are found out", "statement": "load_xdir accepts a set of entries whose count is right exactly if it is valid: the types in order, 1 to 17 name entries, enough of them for the length of the name, and the checksum right; it then has the whole set in the buffer. A valid set in which one byte is changed, whichever byte but the count of entries, is refused with FR_INT_ERR; so is a changed count, if the set has no more name entries than needed and is not followed by another name entry.", "quantifier": "Every directory, every set, every byte of it and every new value.", "why_tests_cant": "608 bytes with 255 wrong values each, for every set of entries.", "anchors": ["fatfs/fatfs.c:load_xdir", "fatfs/fatfs.c:xdir_sum"]}
{"id": "C145", "title": "Directories on exFAT are searched and listed correctly", "statement": "In a directory of valid sets of files and any other entries (deleted, label, bitmap), dir_find finds the first file whose name equals the name searched up to upper and lower case, with its entries loaded, and FR_NO_FILE exactly if there is none. f_readdir called repeatedly gives every file exactly once, in order, with its entries. A set that is not valid ends the list with FR_INT_ERR after exactly the files before it.", "quantifier": "Every directory of any number of files and entries, every name searched and every prior content of the buffer.", "why_tests_cant": "Sets of 3 to 19 entries in any order; the search goes on from inside the set just loaded.", "anchors": ["fatfs/fatfs.c:dir_find", "fatfs/fatfs.c:dir_read", "fatfs/fatfs.c:f_readdir", "fatfs/fatfs.c:load_xdir"]}
{"id": "C146", "title": "Removing a file from an exFAT directory", "statement": "f_unlink of a name that is in the directory (up to upper and lower case) marks the entries of the first such file as not in use and changes nothing else: the directory then holds exactly the other files, at the same places. If no file has the name, nothing changes and FR_NO_FILE is returned.", "quantifier": "Every directory of any number of files and entries, every name, every prior content of the buffer.", "why_tests_cant": "The entries removed are those between two places the search leaves behind, for any length of name and any position.", "anchors": ["fatfs/fatfs.c:dir_remove", "fatfs/fatfs.c:f_unlink", "fatfs/fatfs.c:dir_find"]}
{"id": "C147", "title": "A new file in an exFAT directory", "statement": "The entries of a new file are stored over entries that were not in use or behind the end of the directory: afterwards the directory holds the new file and exactly the files it held before, all with their entries unchanged and in order, and its end is still marked. The file is refused only if the table has no run of unused entries long enough, and then nothing is written.", "quantifier": "Every directory of any number of files and entries, every name of 1 to 255 units, all values of the fields and every prior content of the buffer.", "why_tests_cant": "Gaps of any length between files of any length; a run may begin among deleted entries and end behind the end mark.", "anchors": ["fatfs/fatfs.c:dir_alloc", "fatfs/fatfs.c:dir_register", "fatfs/fatfs.c:create_xdir", "fatfs/fatfs.c:store_xdir"]}
