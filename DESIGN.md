# Formal model of fpm-embedded

This directory holds a Coq 8.16.1 model of parts of fp-m/fpm-embedded (`/repo`)
and machine-checked proofs of the properties in `properties.jsonl`.
`MANIFEST.json` maps each property to the theorems that settle it.

## Trusted base

* Coq's kernel (8.16.1), `coqc`/`coqchk`, and the VM (`vm_compute`) where a
  finite domain is enumerated.
* Each `*Props.v` file prints the assumptions of every theorem with
  `Print Assumptions`. The summary is at the end of this file.
* The hand translation of C into Gallina. Every model definition cites the
  file and lines it models and says where it simplifies. Nothing is extracted
  or generated from `/repo`; nothing ties model and code but reading.
* Meaning of C assumed by the models: 8-bit bytes, little endian, `int` and
  `unsigned` 32 bits, `wchar_t`-like `fpm_wchar_t` 16 bits, `size_t` 32 or 64 bits
  (the allocator is parametric in the pointer size 4 or 8). Out-of-bounds access
  is a distinct model outcome, never silently given a value.

## Layout

For each module `X`: `XModel.v` (translation, no proofs), `XSpec.v` (independent
specification, not using the model's helpers), `XProof.v` (lemmas), `XProps.v`
(the theorems, each closed by `exact`, with `Print Assumptions` and a concrete
`Example` satisfying its hypotheses).

## Plan per property

| Property | What is modelled | How it is proved |
|---|---|---|
| C01-C05 | `kernel/fpm_alloc.c` on byte-addressed memory `Z -> Z`; free list linked through memory | invariant (free list in memory represents a sorted coalesced list; free and live blocks tile the heap) kept by every operation; induction over histories |
| C06-C08 | `fpm_alloc`, `fpm_realloc`, `fpm_truncate` | per-call theorems on reachable heaps |
| C09 | size computation with explicit wrap | refutation witness + guarded theorem |
| C10 | `fpm_context_push/pop` | frame property: nested history writes only inside the carved block |
| C11-C14 | `fpm_tokenize` on a byte buffer, in place | refinement to a recursive reference splitter; bounds invariant; witness for argv overflow |
| C15-C20 | `fpm_strlcpy.c`, `fpm_putwch.c`, `fpm_getwch.c`, `fpm_puts.c`, `fpm_strwlen.c` | induction over strings against an independent UTF-8 definition |
| C21 | `fpm_getkey.c` as a function on input streams | induction over key lists |
| C22-C25 | `fpm_editline.c` as key step function on buffer + terminal output | invariant and refinement to a zipper editor and terminal line |
| C26-C28 | `fpm_getopt.c` step function | refinement to an item list, witness for stale offset, measure for termination |
| C29 | `fpm_get_dotw.c` | induction over days in the Gregorian calendar |
| C30-C31 | CRC tables and loops | table checked against bitwise spec by enumeration, lifted by induction; linearity + invertibility for error detection |
| C32-C36, C58-C63 | `apps/rz` numbers, headers, serial framing, receive loop | round-trips by induction over byte lists with explicit input stream |
| C37-C38, C64-C66 | `fpm_loader.c`, `fpm_exec.c`, `unix/loader_unix.c`; the file as its bytes | equivalence with a reading of the ELF structures; traces of effects |
| C67-C68 | `fpm_shell.c` over the editor, encoder and splitter models | composition of C11, C17, C23; induction over the lines of a dialog |
| C39-C42, C69-C74 | `kernel/cmd/cmd_dir.c`, `cmd_cat.c`, `f_gets` | merge sort correctness; digit arithmetic; list induction |
| C43 | `unix/diskio_unix.c`, `pico/flash.c` | refinement to a sector map over histories; wrap witness |
| C44-C45 | `pico/sd_pico/sd_card.c` parts | bit-level arithmetic; witness for lost error |
| C46-C53, C75-C79 | `fatfs/fatfs.c` parts, `fatfs/unicode.c` | invariants over histories of FAT, lock and file operations; a directory table refines a list of files |
| C80-C87 | `fatfs/fatfs.c`: `follow_path`, `f_open`, `f_unlink`, `f_mkdir`, `f_rename`, `f_chmod`, `f_utime`, `f_opendir`, `f_chdir`, `f_stat`, `f_getcwd` over directory tables (C76), cluster chains and a free list | the volume refines a tree of named files; each operation is an edit of the tree; induction over histories; witnesses |
| C88-C93 | `fatfs/fatfs.c`: `f_mkfs` and `create_partition` without exFAT, `check_fs`, `find_volume`, `mount_volume`, `f_statfs`, over a drive as a function from sectors to bytes with an arbitrary set of bad sectors | the layout as arithmetic on the size; the written sectors byte by byte; composition with C46; witnesses |
| C94-C99 | `kernel/cmd/cmd_remove.c`, `kernel/cmd/cmd_rename.c` over the volumes of C80-C87 and the table of open files (C48) | induction over the depth of the tree and the entries still to be read, with the directory edited under the reader; paths of children; witnesses |
| C100 | `fatfs/fatfs.c`: f_findfirst, f_findnext over the volumes of C80-C87 and the patterns of C50 | induction over the files still to be read |
| C101-C106 | `apps/printf/printf.c` | induction over the pieces of the format with the string edited in place and over the rounds; witnesses |
| C107-C112 | `fatfs/fatfs.c` f_putc, f_puts, f_printf, ftoa | induction over the characters with the buffer as state, over the pieces of the format, over the digits; doubles as spec_float of the standard library; witnesses |
| C113-C115 | `fatfs/fatfs.c` f_expand | the search as a run of free clusters in cyclic order, induction; the chain made is a block; the FAT is changed entry by entry; witnesses |
| C116-C118 | `fatfs/fatfs.c` f_lseek with CREATE_LINKMAP and fast seek, clmt_clust, f_read with a link map, f_forward | chain as a list of maximal runs, induction over the runs; induction over the sectors read and over the turns of the stream |
| C119-C120 | Vol, Serial: f_setlabel, f_getlabel, the buffer of the command vol | the label as an item of the directory of C76; set, then get |
| C121-C124 | Clock: rtc_pico.c, the commands date and time, get_fattime | texts as three written numbers; the stamp as a sum of fields, against print_time of dir |
| C125-C130 | Copy: the command cp over an abstract file system | induction on the tree; errors of the device as an arbitrary function from the number of the call |
| C131-C133 | Cli, Gpio: `cmd_echo.c`, `apps/gpio/gpio.c` on top of the option parser; Pico SDK pins and strtoul from their documentation | induction on the command line (C26 turns it into a fold), loop invariants over the pins; witnesses |
| C134-C138 | Drive: `cmd_format.c`, table of `cmd_mount.c`, sizes and speed test of `cmd_vol.c`, `apps/free` | composition with the line editor, drive names and options; arithmetic; witnesses |
| C139-C142 | Xfat: allocation on exFAT volumes in `fatfs.c` | invariant of the search loop over a ring of bits; bit arithmetic; counting; a description of a chain in its three representations as invariant of all operations; witnesses |
| C143-C147 | Xdir: sets of directory entries on exFAT volumes, searching, listing, removing and adding them, in `fatfs.c` | injectivity of one step of the rotating sum; loop invariants over the positions of the units of a name; case analysis of the byte changed |
| C54-C55 | `tools/uf2fat`, `tools/elfexe` | the flash contents after loading the file; jumps of the rewritten code; witnesses |

## Modelled and not modelled

What counts as modelled is a definition in a `*Model.v` file that cites the lines; the comment
there says what was left out.  By file:

* Whole files: `kernel/` `fpm_editline.c`, `fpm_exec.c`, `fpm_get_dotw.c`, `fpm_getkey.c`,
  `fpm_getopt.c`, `fpm_getwch.c`, `fpm_puts.c`, `fpm_putwch.c`, `fpm_shell.c`, `fpm_strlcpy.c`,
  `fpm_strwlen.c`, `fpm_tokenize.c`, `fpm_wputs.c`; `kernel/cmd/` `cmd_cat.c`, `cmd_copy.c`,
  `cmd_date.c`, `cmd_echo.c`, `cmd_format.c`, `cmd_remove.c`, `cmd_rename.c`, `cmd_time.c`;
  `fatfs/unicode.c`; `apps/gpio/gpio.c`, `apps/printf/printf.c`; `apps/rz/` `crc.c`, `zheaders.c`,
  `znumbers.c`, `zserial.c`; `pico/rtc_pico.c`, `pico/sd_pico/crc.c`, `unix/loader_unix.c`.
* `kernel/fpm_alloc.c`: all but `fpm_heap_print_free_list`.
* `kernel/fpm_loader.c`: not `fpm_unload`, `fpm_get_symbols`, `get_got_pointer` (the values they
  would return are parameters).  `kernel/fpm_strtol.c`: `fpm_strtoul` only, from the description
  of the C library.
* `kernel/cmd/cmd_dir.c`: not the printing of links and the list headers.  `cmd_mount.c`: the table
  only.  `cmd_vol.c`: the label buffer, the sizes and the speed test.
* Not modelled: `cmd_cd.c`, `cmd_clear.c`, `cmd_eject.c`, `cmd_help.c`, `cmd_mkdir.c`,
  `cmd_reboot.c`, `cmd_rmdir.c`, `cmd_ver.c` (their parsing of options is the general C26-C28).
* `apps/rz/rz.c`: the receive loop `rz` with `zm_recv`, not `main`.  `apps/free`: `print_value`.
* `fatfs/fatfs.c`: everything but what follows, in the configuration of the repository.  Of exFAT,
  what concerns clusters (C139-C142) and the sets of directory entries (C143-C147: `xdir_sum`,
  `xname_sum`, `load_xdir`, `store_xdir`, `create_xdir`, `dir_read`, `dir_find`, `dir_remove`, `dir_alloc`, `f_readdir`, the fields
  read by `init_alloc_info` and `get_fileinfo`).  Of exFAT not `xsum32`, `load_obj_xdir`, nor the branches
  of `dir_register` (the stretched directory), `check_fs`, `f_mkfs`, `f_getlabel`,
  `f_setlabel`, `f_mkdir`, `f_rename`.  Not `dbc_1st`, `dbc_2nd` (unused code pages),
  `unlock_volume`, `sync_fs` (the FSInfo sector), `dir_clear`, `f_mount`, `f_chdrive`, `f_getdrive`,
  and the accessors `f_size`, `f_tell`, `f_eof`, `f_error`, `f_sizeof_*`.  Not `fatfs/strerror.c`.
* `pico/diskio.c`: `disk_read`, `disk_write`, `disk_ioctl`, `disk_identify`.  `pico/flash.c`: block
  read, write, count and probe.  `pico/sd_pico/sd_card.c`: the protocol (commands, tokens, CRCs,
  capacity, initialisation), not locking and port set-up.  `pico/sd_pico/sd_spi.c`: transfers only.
* `unix/diskio_unix.c`: `disk_read`, `disk_write`, `disk_ioctl`.
* `tools/elfexe/elfexe.c`: the rewriting of the PLT on each architecture, not opening the file and
  finding the sections.  `tools/uf2fat/format.cpp`: `scan_block`, `get_location_and_family`,
  `write_sector`, `save_image`, `format_filesystem`; not `main.cpp`, `dump.cpp`, `diskio.cpp` nor
  copying the files into the image.
* Not modelled: `pico/sd_pico/spi.c`, `pico/fpm_pico.c`, `pico/main_pico.c`, `pico/bindings.c`,
  `unix/fpm_unix.c`, `unix/main_unix.c`, `unix/bindings.c`, `apps/cmd`, `apps/hello`, `tests`,
  `fatfs/examples`.
* Hardware access (SPI, USB, UART, timing of flash programming), compiler behaviour, assembly
  entry stubs, real concurrency (the system is single threaded; interrupts only fill FIFOs), and
  the formatting of the host's printf.
* Modules are joined where a theorem says so (for instance C67 shell on editor and splitter, C94
  rm on the tree of C80).  The data sectors of files (C53, C117), the FAT (C46), directory tables
  (C76) and the tree (C80) are separate models of one volume at different levels.

## Mutation log

`seeded/LOG.jsonl` has one line per wrong program tried.  Each edit was made in a
scratch copy and the copy rebuilt; a lemma that failed was admitted there and the
build repeated, until nothing new failed (the first 76 lines stop at the first
failing lemma of a file).  `first_failing_lemmas` are the lemmas Coq itself
rejected.  `failed` are the property theorems that rest on one of them, found by
following names through the proofs: it says that the proof of the theorem is gone,
not that its statement was shown false for the edited model.  The exceptions are
marked with a `note`.

## Findings

Each is a theorem named `..._refuted` with a concrete witness.

* C09: size arithmetic in `kernel/fpm_alloc.c` wraps; a request near the top of
  the size range returns a block smaller than requested, the zeroing variant
  then clears memory outside it, and `fpm_truncate` upwards grows a block over
  its neighbour.
* C12: `fpm_tokenize` stores its "extra NUL" one byte past the terminator of the
  line. The shell is safe because its buffer is larger than any line.
* C14: the shell's `argv[42]` overflows for a line of 43 words.
* C17: `fpm_strlcpy_to_utf8` counts characters, not bytes; three characters of
  three bytes overrun a six-byte buffer with nitems 6.
* C18: `fpm_strlcpy_from_utf8` and `fpm_puts` read past the terminator when it
  cuts a multi-byte sequence.
* C25: every caller of `fpm_editline` passes a size in bytes while the editor
  counts characters; the 128th character typed at the shell prompt is stored
  outside the buffer.
* C27: after an unknown long option the scan offset stays at 2: the next
  argument is read from its third character (past its end if it has two).
  After an ambiguous one its own letters are parsed as short options.
* C56: an exact long option name is reported ambiguous when two longer names
  stand before it in the table.
* C57: `--` as the first argument is parsed as a long option, because the first
  call of `fpm_getopt` tests `argv[0]`.
* C36: `zm_send_hex_hdr` sends its 17-byte buffer with `zm_send_sz`, which goes
  on to the next NUL in memory.
* C60: `rz` does not reset its byte count between files, so the second file is
  requested from the length of the first; the first file is never closed.
* C61: `rz` passes the ZFILE block to `f_open` without ensuring a NUL.
* C62: `rz` ignores the positions in ZDATA and ZEOF headers.
* C63: `zm_recv` relies on char being unsigned (true of the ARM build).
* C64: `fpm_load` and `fpm_invoke` trust every offset in the file; damaged files
  make them read anywhere, or divide by a zero `sh_entsize`.
* C65: `fpm_exec` returns without `fpm_unload` when stack or heap is short.
* C66: `fpm_load_arch` closes the file on failure, then `fpm_unload_arch` closes
  it again and unmaps `MAP_FAILED`.
* A program that imports nothing has no relocation section and is refused.
* C67: `build_prompt` ignores its `max_length`: a directory name of about 100
  bytes overruns `prompt[128]`.
* C39: `ls -t` compares dates as int: from 2044 on the difference overflows or
  sorts new files as old.
* C42: `cat` loses the rest of a line after a NUL, and up to three bytes after a
  byte that is not UTF-8; blank lines get no CR (harmless, the cursor is at the
  margin).
* C70: `ls` of an invalid name (for example with `*`) longer than 255 bytes
  overruns `info.fname`.
* C71: `ls a/b` lists `b` of the current directory.
* C73: `ls -R` shows hidden directories without `-a`.
* C43: `start + count` wraps in 32 bits: sector 2^20 of the unix disk image
  aliases sector 0 (byte offsets are computed in 32 bits), and `flash_write` of
  two blocks at the last block number below the wrap overwrites the last 4 kbytes
  of the program image.
* C44: a 2 TB SD card (C_SIZE all ones) has 2^32 sectors, which is 0 in
  `uint32_t`: the card is refused.
* C45: `in_sd_write_blocks` stores SD_BLOCK_DEVICE_ERROR_WRITE for a rejected
  block, then overwrites it with the result of CMD13; the rest of a multi-block
  write is silently dropped.
* C45: CMD13 with the idle bit set reports success whatever its other error bits
  say, because the tests assign in sequence.
* C45: a write of zero blocks passes the range check and sends at least one.
* `sd_cmd` says it reinitializes a silent card only once, but each successful
  reinitialization is followed by another try; a new card inserted meanwhile is
  written with the old card's range check and address.
* C49: `tchar2uni` accepts overlong UTF-8 forms of three and four bytes for
  characters from U+0080 on, so one name has several spellings.
* C50: 256 question marks in a row overflow into the "any sequence" bit: the
  pattern matches every name.
* C48: the 256th reader of a file makes its count equal to the mark of a writer:
  further readers are refused, and after one of them closes a writer is admitted
  beside the other 255.
* C48: an open directory can be removed or renamed: `f_opendir` locks it under its
  own first cluster and offset 0, `f_unlink` and `f_rename` look for its entry in
  the parent directory.
* C48: mount identifiers are 16 bits: after 65536 remounts an old handle is valid
  again and closing it releases somebody else's lock.
* C52: put_lfn takes a character U+FFFF of a name for its own padding mark and stores
  nothing behind it; pick_lfn then rejects or shortens the name and the file is not found
  under it again.  tchar2uni and create_name let U+FFFF through.
* C77: create_name accepts U+FFFF in a name; the file is made, but not found by this name.
* C79: a name of up to 255 UTF-16 units can have up to 765 bytes in UTF-8.  f_readdir
  gives up beyond 255 bytes and lists such a file with its short alias only.
* C79: with code page 0 a byte of 0x80 or more in a short name (from another system) is
  listed as a Unicode character, but create_name never makes short names with such
  bytes, so the file cannot be opened by the name it is listed with.
* C55: on arm32 elfexe puts the number of the import, not 4 times it, in the stub; all
  imports but the first call through misaligned words.  On arm64 from import 512 on the
  12-bit immediate overflows into the shift bit and the stub calls import 0 or beyond the
  table.  After a bad entry the program ends, but the stubs before it are already
  rewritten in the file (shared mapping), which is not marked as processed.
* C54: uf2fat places the filesystem at (end + 0x10000) & ~0xffff, the kernel looks for it
  at (size + 0xffff) & ~0xffff.  When the program's 256-byte pages fill whole 64 kbytes
  these differ by 64 kbytes and the kernel does not find the filesystem.
* C54: a UF2 file without blocks for the flash is accepted; the filesystem is then placed
  at address 0x10000.
* C87: f_rename moves a directory into itself without complaint ("/a" to "/a/b").  The
  directory and all below are then used but cannot be reached any more.
* C85: f_stat gives the name of a file with a long name as it is written in the path.  For
  "HELLO world.TEXT", or the alias "HELLOW~1.TEX", that is not the name of the file.
* C83: when there is not enough room for a new name, the directory may be stretched before
  the create is refused; these clusters stay with the directory.
* C75: three capital letters (U+023A, U+023E, U+1FCC) are entered in the table as if they
  were small: "upper case" turns them into their small letters.  Names still compare
  equal exactly when they should.
* C88: on a drive with large erase blocks f_mkfs aligns the data area by extending the FAT,
  and may leave no cluster at all: with 1024 sectors and blocks of 1024 it answers FR_OK,
  but the drive cannot be mounted.
* C89: f_mkfs ignores errors when it writes FSINFO.  If the sector holds the record of an
  earlier volume, its free count is believed.
* C90: create_partition clears 4096 bytes (FF_MAX_SS), but f_mkfs accepts a buffer of one
  sector of 512 bytes.
* C92: mount_volume multiplies the number of FATs by their size in 32 bits.  A record with
  two FATs of 0x80000001 sectors is accepted; cluster 2 then lies in the FAT.  The size of
  the volume is not compared with that of the drive.
* C93: f_statfs gives the size of the whole volume, with boot record, FAT and root
  directory, as number of data blocks.
* C95: `rm -rv` shows, after a directory was removed, the path of its last entry instead of
  the path of the directory (cmd_remove.c:111 prints `child`).  `rm -rf` still asks for
  every directory on the command line.
* C96: `rm -r` keeps a directory open on every level; with 17 levels below the first one it
  stops with "Too many open files", after it may have removed other files.  `rm -r .`
  removes everything in the current directory and then shows an error.
* C98: `mv` onto an existing file asks whether to overwrite it, but `f_rename` never
  overwrites: with y, or with -f, it fails with "File exists".
* C99: `mv d d`, with d a directory, moves d into itself: it is no longer reachable and its
  clusters are lost (see C87).  The name behind the destination directory is copied to a
  buffer with room for 256 bytes without a check (cmd_rename.c:88).
* C104: `printf 100%` reads behind the end of its format: the flags are skipped with `strchr`,
  which also finds the zero.  Sixty-one bytes of text before `%d` overflow the buffer of
  `mklong` (64 bytes, no check).  `printf %*d 0 5` calls `fpm_printf` with one argument too few,
  because `PF` takes a width of zero for none.  `printf %*d 70000` prints a null pointer with %s:
  the message of `getint` looks at the next argument, not at the bad one.
* C105: `printf '%d%%\n' 1 2` shows `1%`, then `2` and "illegal format character": the second
  percent sign of `%%` is overwritten with a zero and never restored.
* C106: `%X` shows lower case letters: `mklong` replaces X by x.
* C107: a character outside ASCII cannot be written with `f_putc`: every call starts with an empty
  sequence, so each of its bytes is dropped and the result is 0.
* C109: `%.26e` of 0.0 writes 33 bytes into `str[32]`: the check of the length is skipped for a true
  zero.  (From 27 digits on more is written.)
* C110: `%e` of DBL_MAX never ends (rounding makes it infinite, and `ilog10` of infinity divides for
  ever); so does `%.400f` of 0.0 (half a unit of the last place is 0, and `ilog10` of 0 multiplies for
  ever).
* C111: `%.0f` of 1e28 shows `:` and 27 zeros: `ilog10` divides by 100000 with rounding and is one
  too low, the first digit is ten.  `%.18f` of 0.009 ends with `/`: the rest after a digit is
  negative.
* C112: `%05d` of -42 shows `00-42`; `%*d` with a width of -5 writes 4294967290 blanks; `%llb` of
  2^32 shows 32 zeros, as the buffer has room for 32 digits.
* C114: the search of `f_expand` goes on at the begin of the volume without giving up the clusters
  counted at its end.  The block found then lies across the end; linking it fails half way with
  FR_INT_ERR, and the clusters up to the end of the volume stay marked as used by nobody.  An
  empty volume is enough, if the last cluster given out is behind the middle.
* C115: a block of free clusters which contains the place where the search of `f_expand` begins is
  counted from there only, so FR_DENIED is possible although the block is large enough.
* C123: a file written while the clock is in 2108 or later, which the command date allows, is stamped with a year a multiple of 128 years too early (C123_late_refuted).
* C124: date accepts days that do not exist (30 February), and accepts the years 4096 to 9999 without a message although the clock, whose year register ends at 4095, keeps its old date (C124_calendar_refuted, C124_ignored_refuted).
* C128: `cp -r foo/ bar`, the usage of the table in cmd_copy.c, with bar an existing directory: the slash is stored over the NUL of the destination's name and nothing is stored behind it, so the name is read beyond its end (C128_defined_refuted).  After another source the contents of foo go below that one's name (C128_place_refuted).  An empty source reads the byte before the string (C128_empty_refuted).
* C129: an error of f_readdir ends the copy of a directory without a message, and one of f_close is ignored: the copy is empty although -v calls it copied, and a place of the 16 in Files[] is lost each time (C129_readdir_refuted, C129_close_refuted).
* C130: `cp -r x x/b` copies the copy, 17 levels deep (C130_into_itself_refuted).
* C133: gpio takes a text without digits for the number 0 (`gpio foo=1` sets GPIO0), takes a dash in the value for a range (`gpio 1=0-5` changes GPIO1 to GPIO5), and does not check the number of a pin: from 32 on the shift is undefined, and configuring pins 30 and more writes behind the registers (C133_words_refuted, C133_dash_refuted, C133_defined_refuted).
* C135: every caller of fpm_editline passes the size of the buffer in bytes although it counts characters; at the question of format (also rm, mv, cp) the 32nd character is stored behind the array (C135_reply_refuted; compare C25).
* C138: vol -t returns after a failed write or read without closing or removing its file (C138_left_refuted).
* C140: `f_expand` on exFAT volumes. `find_bitmap` goes round from the last cluster to the first
  within one run, so if the last a and the first b clusters are free, a request for a + b clusters
  gives the file b clusters behind the end of the volume (and marks bits of the bitmap which stand
  for no cluster). A free block around the cluster where the search starts is not found, and
  FR_DENIED is returned. The number of clusters is computed in 32 bits, so a size of
  2^32 clusters and one byte succeeds with one cluster and the size set as asked.
* C142: on an exFAT volume with the largest number of clusters, 2^31 - 3, the number of the last
  cluster plus one is the mark for the end of a chain, and `remove_chain` takes it for the next
  contiguous cluster: it returns FR_OK, but does not mark the block that ends there as free.

## Assumptions of the theorems

`Print Assumptions` answers "Closed under the global context" for each of the 354 theorems named in
`MANIFEST.json`: they rest on the kernel alone, and no axiom is used, not even one of the standard
library.  `coqchk` lists, among the files it loads, the parameters of `Coq.ssr.ssrunder.Under_rel`
(and nothing of this development); no theorem depends on them.
