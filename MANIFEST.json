{
 "claims": [
  {
   "property": "C01",
   "status": "proved",
   "theorems": [
    "C01_round_trip",
    "C01_create",
    "C01_any_srr",
    "C01_edits",
    "C01_merge",
    "C01_other_block_refuted",
    "C01_old_srr_refuted"
   ],
   "note": "Store-mode volumes are [store_volume]: well formed RAR 1.5-4.x blocks of types 0x72-0x7B, method 0x30, recovery records that hold the data RAR computes. [supplied] says that the files on disk are the archived ones. C01_other_block_refuted records that blocks of other types are lost silently."
  },
  {
   "property": "C02",
   "status": "proved",
   "theorems": [
    "C02_written_blocks_read_back",
    "C02_srr_files_read",
    "C02_volumes_read",
    "C02_short_file_refuted"
   ],
   "note": "Constructors of the five SRR blocks and the reader; files below 20 bytes are refused by the reader (C02_short_file_refuted), hence the size condition."
  },
  {
   "property": "C03",
   "status": "proved",
   "theorems": [
    "C03_extract",
    "C03_extract_all"
   ],
   "note": "Default overwrite policy; packed_name selection (the regular expression matcher of extract_files is not modelled). When two stored files have the same place the first one wins, hence the condition in C03_extract_all."
  },
  {
   "property": "C04",
   "status": "proved",
   "theorems": [
    "C04_add",
    "C04_place"
   ],
   "note": "For SRR files of the format whose recovery data is left out (srr_ok)."
  },
  {
   "property": "C05",
   "status": "proved",
   "theorems": [
    "C05_remove",
    "C05_add_then_remove"
   ],
   "note": "For SRR files of the format whose recovery data is left out (srr_ok). Reading the result back needs at least 20 bytes."
  },
  {
   "property": "C06",
   "status": "proved",
   "theorems": [
    "C06_rename"
   ],
   "note": "For SRR files of the format (srr_ok). Reading the result back needs at least 20 bytes."
  },
  {
   "property": "C07",
   "status": "proved",
   "theorems": [
    "C07_merge"
   ],
   "note": "For SRR files of the format (srr_ok). Application names of 65527 bytes and more cannot be written."
  },
  {
   "property": "C08",
   "status": "proved",
   "theorems": [
    "C08_extract",
    "C08_reconstruct",
    "C08_place",
    "C08_reject"
   ],
   "note": "For any bytes as SRR file. Temporary files made while rebuilding compressed archives are not modelled."
  },
  {
   "property": "C09",
   "status": "partial",
   "theorems": [
    "C09_refuted",
    "C09_outside_name",
    "C09_inside_partial",
    "C09_flat"
   ],
   "note": "False as stated (C09_refuted): _store compares a str with bytes, so the fallback is never taken and every file outside the folder gets a name beginning with '..' (C09_outside_name). Proved: files below the folder get the path leading to them. Without paths the last component is stored (C09_flat)."
  },
  {
   "property": "C10",
   "status": "proved",
   "theorems": [
    "C10_create",
    "C10_extract",
    "C10_reconstruct",
    "C10_tmp_name_refuted"
   ],
   "note": "Default policy. tmp_srr_name must be unset or name no existing file (C10_tmp_name_refuted shows why). The command line front end is not modelled."
  },
  {
   "property": "C11",
   "status": "partial",
   "theorems": [
    "C11_crash_refuted",
    "C11_remove_loses_refuted",
    "C11_add_partial",
    "C11_rename_partial",
    "C11_remove_partial",
    "C11_calm_partial"
   ],
   "note": "False as stated: crash between remove and rename (C11_crash_refuted); remove_stored_files loses both files when the rename fails (C11_remove_loses_refuted). Proved: the full list of possible end states, for every sequence of failures and crash points."
  },
  {
   "property": "C12",
   "status": "partial",
   "theorems": [
    "C12_refuted",
    "C12_partial",
    "C12_no_temporary"
   ],
   "note": "False as stated (C12_refuted). Proved: the full list of possible end states, and that nothing changes without temporary file."
  },
  {
   "property": "C13",
   "status": "partial",
   "theorems": [
    "C13_stream",
    "C13_absent",
    "C13_empty_part_refuted",
    "C13_no_name_refuted"
   ],
   "note": "C13_stream: for every set on disk in any naming style, starting at any volume, every sequence of seek/tell/read answers like the concatenated data. It needs that the part in the first volume is not empty (or that the whole file is); otherwise C13_empty_part_refuted. Without a name it needs that every volume starts with the same file; otherwise C13_no_name_refuted. close() is not modelled."
  },
  {
   "property": "C14",
   "status": "proved",
   "theorems": [
    "C14_hash",
    "C14_small",
    "C14_in_set"
   ],
   "note": "The hash of a plain file, for every content; the RarStream case rests on C13. C14_in_set: the same for a file read through its RAR volumes."
  },
  {
   "property": "C15",
   "status": "proved",
   "theorems": [
    "C15_combine"
   ],
   "note": "Against CRC-32 defined by polynomial division."
  },
  {
   "property": "C16",
   "status": "proved",
   "theorems": [
    "C16_file",
    "C16_zlib",
    "C16_pieces"
   ],
   "note": "calculate_crc32 and zlib.crc32 against CRC-32 defined by polynomial division."
  },
  {
   "property": "C17",
   "status": "proved",
   "theorems": [
    "C17_lines",
    "C17_rows"
   ],
   "note": "Any bytes. The decoding of the names as latin-1 is that of the code."
  },
  {
   "property": "C18",
   "status": "partial",
   "theorems": [
    "C18_filter",
    "C18_any_sort",
    "C18_nothing_lost",
    "C18_total",
    "C18_cycle_refuted",
    "C18_order_refuted"
   ],
   "note": "The order of the volumes of one set is proved for any sorting that uses this comparison, and that only repeated entries are left out. Not a strict total order: C18_cycle_refuted, C18_order_refuted. sorted() is modelled as insertion sort."
  },
  {
   "property": "C19",
   "status": "proved",
   "theorems": [
    "C19_next"
   ],
   "note": "For every style, base name, width and volume number; told says that the header flag or the name decides between old and new style for names like a.part1.rar."
  },
  {
   "property": "C20",
   "status": "partial",
   "theorems": [
    "C20_is_rar",
    "C20_one_set",
    "C20_many_sets",
    "C20_two_sets_refuted"
   ],
   "note": "is_rar and one complete set in any style and order are proved, as are several sets of plain styles. For several sets numbered from 000 it is false: C20_two_sets_refuted."
  },
  {
   "property": "C21",
   "status": "proved",
   "theorems": [
    "C21_dictionary",
    "C21_directory",
    "C21_method"
   ],
   "note": "All flags and all method bytes. For directories the switch given is -mdG (C21_directory)."
  },
  {
   "property": "C22",
   "status": "proved",
   "theorems": [
    "C22_names_decode",
    "C22_every_name_has_an_encoding"
   ],
   "note": "All encodings of the format; names of Unicode scalar values."
  },
  {
   "property": "C23",
   "status": "proved",
   "theorems": [
    "C23_dos_time",
    "C23_every_stamp"
   ],
   "note": ""
  },
  {
   "property": "C24",
   "status": "proved",
   "theorems": [
    "C24_record",
    "C24_too_small",
    "C24_sums",
    "C24_parity"
   ],
   "note": "Layout, sums and parity of the record; IndexError when the header leaves too little room."
  },
  {
   "property": "C25",
   "status": "partial",
   "theorems": [
    "C25_sizes",
    "C25_created",
    "C25_last",
    "C25_collision_refuted",
    "C25_sums",
    "C25_files",
    "C25_known",
    "C25_unknown_partial",
    "C25_empty_part_refuted"
   ],
   "note": "Proved when the volume names without folders and in lower case are different (C25_sizes, C25_created); for other sets the last volume of each name (C25_last). All volumes listed: refuted for CD1/a.rar, CD2/a.rar. Of the steps of the listing: SFV sums and the other SFV entries (C25_sums), archived files with method and CRC (C25_files) and size (C25_known, C25_unknown_partial); refuted for files of unknown size with a first part without data."
  },
  {
   "property": "C26",
   "status": "partial",
   "theorems": [
    "C26_bytes",
    "C26_same",
    "C26_edits",
    "C26_collision_refuted"
   ],
   "note": "Proved when the volume names without folders and in lower case are different. Refuted for CD1/a.rar, CD2/a.rar: only one of the two is hashed. Data after the last header of a volume (e.g. padding) is not hashed."
  },
  {
   "property": "C27",
   "status": "partial",
   "theorems": [
    "C27_stale_refuted",
    "C27_directory_refuted",
    "C27_same_partial",
    "C27_one_partial"
   ],
   "note": "Refuted in general: the offset in the file of an earlier volume is used for a new file (C27_stale_refuted), and directories raise IndexError (C27_directory_refuted). Proved (C27_same_partial, C27_one_partial) when all parts of the volume are at the offset the code uses, e.g. a volume that continues the file of the volumes before it, or the first volume. Missing: volumes with parts at other offsets (false there)."
  },
  {
   "property": "C28",
   "status": "proved",
   "theorems": [
    "C28_silent",
    "C28_quiet",
    "C28_file"
   ],
   "note": "For reconstruction of all volumes (no volume filter), files present and stored with method m0 or split; for each part the CRC check of the archive holds of the bytes read (C28_silent), and no false alarm is raised (C28_quiet). C28_file gives the CRC of the whole file on disk when that file is not longer than its parts; bytes after the last part are never looked at."
  },
  {
   "property": "C29",
   "status": "proved",
   "theorems": [
    "C29_make",
    "C29_read",
    "C29_decode",
    "C29_large"
   ],
   "note": "All lengths the encoder accepts, below 2^49 (C29_large)."
  },
  {
   "property": "C30",
   "status": "partial",
   "theorems": [
    "C30_frames",
    "C30_sum",
    "C30_one_fixed_refuted",
    "C30_one_ebml_refuted"
   ],
   "note": "Proved for all lacing types with two or more frames, and none/Xiph with any number. One frame with fixed or EBML lacing gives a wrong size: C30_one_fixed_refuted, C30_one_ebml_refuted."
  },
  {
   "property": "C31",
   "status": "proved",
   "theorems": [
    "C31_encode",
    "C31_decode",
    "C31_large"
   ],
   "note": "All sizes below 2^28; larger ones lose their upper bits (C31_large)."
  },
  {
   "property": "C32",
   "status": "proved",
   "theorems": [
    "C32_round",
    "C32_written"
   ],
   "note": "The stored name is the part after the last slash."
  },
  {
   "property": "C33",
   "status": "partial",
   "theorems": [
    "C33_round",
    "C33_written",
    "C33_large_number_refuted"
   ],
   "note": "Proved when flag 0x8 is set exactly for track numbers of 2^16 and more. The flag is never set by the code: C33_large_number_refuted."
  },
  {
   "property": "C34",
   "status": "proved",
   "theorems": [
    "C34_search",
    "C34_rebuilt",
    "C34_checked",
    "C34_sound",
    "C34_created"
   ],
   "note": "For nonempty samples, names that can be stored, and main files given by their bytes; a main file in RAR volumes is read as C13 says. Also: an SRS can be created for every such sample, and whatever is reported as rebuilt has the CRC and size of the sample."
  },
  {
   "property": "C35",
   "status": "partial",
   "theorems": [
    "C35_partial",
    "C35_general_partial",
    "C35_sound",
    "C35_created",
    "C35_refuted",
    "C35_unprinted_refuted",
    "C35_lyrics",
    "C35_lyrics_refuted"
   ],
   "note": "Proved for well formed MP3 files (any number of ID3v2 tags, APE, Lyrics3v1, Lyrics3v2 and ID3v1 tags) whose SRS, which ends in the fingerprint if there is one, does not seem to end in other tags; refuted otherwise: a fingerprint with 'TAG' at the right place gives a wrong file, a Lyrics3v1 tag makes the SRS unreadable. int() of the six characters in a Lyrics3v2 tag and the fingerprint that fpcalc makes are parameters."
  },
  {
   "property": "C36",
   "status": "partial",
   "theorems": [
    "C36_partial",
    "C36_sound",
    "C36_created",
    "C36_tagged",
    "C36_refuted"
   ],
   "note": "Proved for samples of the mark, metadata blocks and audio, from every main file with the same audio; refuted for samples with ID3 tags, for which the rebuild is always a TypeError in Python 3. Types I, T, f, s, t, u of metadata blocks (not defined in FLAC) are excluded. The fingerprint made by fpcalc is a parameter."
  },
  {
   "property": "C37",
   "status": "partial",
   "theorems": [
    "C37_rebuilt",
    "C37_partial",
    "C37_sound",
    "C37_created",
    "C37_refuted",
    "C37_ended_refuted",
    "C37_empty_refuted",
    "C37_no_movi_refuted"
   ],
   "note": "Proved for rebuilding from extracted tracks, and from a main file when the first data of the sample is at the begin of a chunk, the streams of the movie go on behind it and each stream of the sample has data; refuted when the first data is inside a chunk, when a stream of the movie ends earlier, with an empty stream and without a list movi. Main files inside RAR volumes: C62."
  },
  {
   "property": "C38",
   "status": "partial",
   "theorems": [
    "C38_rebuilt",
    "C38_partial",
    "C38_sound",
    "C38_created",
    "C38_refuted",
    "C38_twice_refuted",
    "C38_number_refuted",
    "C38_hidden_refuted",
    "C38_strips_refuted",
    "C38_segment_refuted"
   ],
   "note": "Proved for rebuilding from extracted tracks and attachments, and from a main file in which tracks and attachments are before the clusters, nothing before the begin of the sample looks like it, and the same header or none is removed from the frames; refuted for attachments behind the clusters, two attachments of the same name, track numbers above 127 in one byte, frames that begin like the sample, different removed headers, and files without a segment. Main files inside RAR volumes: C62. The retries after a wrong CRC: C61."
  },
  {
   "property": "C39",
   "status": "partial",
   "theorems": [
    "C39_table",
    "C39_before",
    "C39_read",
    "C39_partial",
    "C39_refuted"
   ],
   "note": "Proved for every table with increasing first chunks and every chunk, and for reading the tracks of a whole file whose tables are stco/co64, stsc and stsz; refuted for the sizes in a box stz2, which are misread."
  },
  {
   "property": "C40",
   "status": "partial",
   "theorems": [
    "C40_part_partial",
    "C40_whole_partial",
    "C40_escape_refuted",
    "C40_name_refuted"
   ],
   "note": "Proved for whole articles, single and multi-part, with every escape of the characters the draft calls critical (NUL, LF, CR, =, TAB, ESC, SPACE, DOT), any line cuts, dots doubled, field orders, up to nine lines around: the bytes, numbers and name come back, or CrcError exactly when the CRC differs. Refuted for other escapes, which the draft allows (C40_escape_refuted), and for names that hold ' part=' (C40_name_refuted)."
  },
  {
   "property": "C41",
   "status": "partial",
   "theorems": [
    "C41_refuted",
    "C41_order_partial",
    "C41_in_time_partial",
    "C41_lost_partial",
    "C41_waited_partial",
    "C41_ends_partial"
   ],
   "note": "Refuted: a message reported between the end of the display loop and the replacement of the list is lost (C41_refuted gives the schedule, C41_lost_partial shows it for every schedule with such a step). Proved for every schedule without such a step (C41_in_time_partial), for programs that wait after each message under any schedule (C41_waited_partial); in all schedules nothing is shown twice, out of order or unreported (C41_order_partial) and the thread ends (C41_ends_partial)."
  },
  {
   "property": "C42",
   "status": "proved",
   "theorems": [
    "C42",
    "C42_name"
   ],
   "note": "For every directory tree, folder and list of names: each name gives the file at that path or a not-found message, no other file. So the wildcards promised in the docstring of _search never match anything. glob and fnmatch of the Python library are modelled."
  },
  {
   "property": "C43",
   "status": "partial",
   "theorems": [
    "C43_partial",
    "C43_exact_partial",
    "C43_surrogate_refuted",
    "C43_refuted"
   ],
   "note": "Refuted: the limit is checked in characters, so some accepted names with non-ASCII characters cannot be written; the same for lone surrogates. Proved for ASCII names, and exactly which names work."
  },
  {
   "property": "C44",
   "status": "partial",
   "theorems": [
    "C44_partial",
    "C44_tagged",
    "C44_refuted"
   ],
   "note": "Proved without an ID3v2 tag in the main file; refuted with one: the offset is relative to the audio block, and the rebuild fails with an assertion for every tag larger than the data in front of the audio."
  },
  {
   "property": "C45",
   "status": "partial",
   "theorems": [
    "C45_avi_profile",
    "C45_avi_srs",
    "C45_avi_load",
    "C45_avi_find",
    "C45_avi_extract",
    "C45_avi_rebuild",
    "C45_avi_restore",
    "C45_flac",
    "C45_mkv_profile",
    "C45_mkv_srs",
    "C45_mkv_load",
    "C45_mkv_find",
    "C45_mkv_extract",
    "C45_mkv_rebuild",
    "C45_mkv_restore",
    "C45_mp3",
    "C45_mp4_partial",
    "C45_mp4_profile",
    "C45_mp4_tables",
    "C45_mp4_refuted",
    "C45_rar_reading_ends",
    "C45_rar_steps_bounded",
    "C45_stream_partial",
    "C45_stream_refuted",
    "C45_wmv_profile",
    "C45_wmv_srs",
    "C45_wmv_packet",
    "C45_wmv_partial",
    "C45_wmv_refuted",
    "C45_wmv_find_refuted"
   ],
   "note": "RAR and SRR reader, MP3 reader, FLAC reader, RIFF reader, EBML reader and every function for AVI and MKV files: proved. Stream SRS reader: refuted for a first block of size 0 (read forever), proved otherwise. MP4 reader: refuted for a size of 0 in 64 bits, proved otherwise, and for every file when a sample is profiled. ASF reader: proved for profiling and creating; refuted for an object of size 0 when an SRS is loaded or a main file is read, proved otherwise."
  },
  {
   "property": "C46",
   "status": "proved",
   "theorems": [
    "C46_reading_partitions"
   ],
   "note": ""
  },
  {
   "property": "C47",
   "status": "partial",
   "theorems": [
    "C47_partial",
    "C47_previous_partial",
    "C47_refuted"
   ],
   "note": "Refuted with an executable that worked before: it is in the list twice. Proved without one, and with one the list is the same behind it."
  },
  {
   "property": "C48",
   "status": "partial",
   "theorems": [
    "C48_partial",
    "C48_refuted"
   ],
   "note": "Refuted for --mt-min above --mt-max: the minimum is tried. Proved for every set and for all other limits, termination included."
  },
  {
   "property": "C49",
   "status": "partial",
   "theorems": [
    "C49_complete",
    "C49_ends",
    "C49_other_error_refuted"
   ],
   "note": "For a missing or compressed volume the unfinished file is removed (C49_ends); other errors leave half a file: C49_other_error_refuted."
  },
  {
   "property": "C50",
   "status": "partial",
   "theorems": [
    "C50_partial",
    "C50_refuted"
   ],
   "note": "Refuted for sets that are not increasing (--mt-set 8,4 never tries 4). Proved for no set and for increasing ones."
  },
  {
   "property": "C51",
   "status": "partial",
   "theorems": [
    "C51_refuted"
   ],
   "note": "Refuted: all glob characters are escaped, so wildcards never match; C42 is what holds instead."
  },
  {
   "property": "C52",
   "status": "partial",
   "theorems": [
    "C52_partial",
    "C52_refuted"
   ],
   "note": "Proved for all readable SRR files, except the size when no header gives it and the first part is empty: then 2^32-1 is added (C52_refuted)."
  },
  {
   "property": "C53",
   "status": "proved",
   "theorems": [
    "C53_listed"
   ],
   "note": "For every well formed SRR file whose listing succeeds (C25 says when)."
  },
  {
   "property": "C54",
   "status": "proved",
   "theorems": [
    "C54_sums"
   ],
   "note": "For every well formed SRR file whose listing succeeds, and every case function."
  },
  {
   "property": "C55",
   "status": "partial",
   "theorems": [
    "C55_mp3_partial",
    "C55_flac"
   ],
   "note": "FLAC: proved for all samples, with tags too. MP3: proved when the SRS does not seem to end in other tags (see C35); the size limits are those of the blocks."
  },
  {
   "property": "C56",
   "status": "partial",
   "theorems": [
    "C56_partial",
    "C56_sound",
    "C56_created",
    "C56_refuted",
    "C56_number_refuted"
   ],
   "note": "Proved for samples with one box mdat, whose chunks cover its data, and track numbers below 2^16; refuted for two boxes mdat (all data goes into the first) and for track numbers from 2^16 on. Main files inside RAR volumes: C62."
  },
  {
   "property": "C57",
   "status": "partial",
   "theorems": [
    "C57_rebuilt",
    "C57_partial",
    "C57_sound",
    "C57_created",
    "C57_refuted",
    "C57_empty_refuted",
    "C57_length_refuted"
   ],
   "note": "Proved for rebuilding from extracted tracks, and from a main file in which nothing before the begin of the sample looks like it and whose streams all have data in the sample; refuted for a stream that only the movie has, a stream of the sample with payloads but no data (both IndexError), and packets whose heads are together as long as one packet. Main files inside RAR volumes: C62."
  },
  {
   "property": "C58",
   "status": "partial",
   "theorems": [
    "C58_partial",
    "C58_music",
    "C58_refuted",
    "C58_outside_refuted"
   ],
   "note": "Proved for names that stay below the folder, with no folder in the place of a file, and for the search when sizes are in the headers and extensions have no pattern characters. Refuted: a nonempty file whose CRC is 0 is not looked for, and a file with an absolute name is looked for outside the folder."
  },
  {
   "property": "C59",
   "status": "partial",
   "theorems": [
    "C59_partial",
    "C59_refuted"
   ],
   "note": "Proved for every folder listing: the first entry equal but for case is taken. Refuted: when two names are equal but for case, the name of an existing file can be changed to the other."
  },
  {
   "property": "C60",
   "status": "proved",
   "theorems": [
    "C60",
    "C60_file"
   ],
   "note": "Reconstruction with missing files (stored files, sizes in the headers) and the file object itself. A seek to the very end fails on the object, though not on a file; the specification says so."
  },
  {
   "property": "C61",
   "status": "partial",
   "theorems": [
    "C61_first",
    "C61_ends",
    "C61_sound",
    "C61_others",
    "C61_fit",
    "C61_partial",
    "C61_taken_partial",
    "C61_refuted",
    "C61_once_refuted"
   ],
   "note": "Proved: it ends, what is said to be rebuilt has the right CRC, the first attempt decides if it is right, the other places are places of frames that begin like the data of the track, and if for each track the right place is one that is tried (MkvRetrySpec.v) the sample is rebuilt, for any tracks held to have a poor signature. Refuted as stated: ValueError when every track has other places; the first place of a track is not combined with other places of another track. The two refutations and the example give the list of tracks with a poor signature (mkv_restore_from), as the real limit is 1000000 bytes."
  },
  {
   "property": "C62",
   "status": "partial",
   "theorems": [
    "C62_program",
    "C62_type",
    "C62_avi",
    "C62_mkv",
    "C62_wmv",
    "C62_mp4",
    "C62_mp4_refuted",
    "C62_flac",
    "C62_mp3",
    "C62_stream",
    "C62_refuted",
    "C62_capital_refuted"
   ],
   "note": "Proved: any code that only seeks, tells and reads gets the same result (C62_program), and with it the type of the movie and rebuilding samples of all types but M2TS. Refuted: an MP4 movie that is not the first file of the volumes (its tracks are searched in the first file), an MP3 file with an ID3 tag inside RAR volumes (TypeError), and a movie that is not the first file and has its extension in capitals."
  },
  {
   "property": "C63",
   "status": "proved",
   "theorems": [
    "C63_replies",
    "C63_equal"
   ],
   "note": "For every type of keys and values and every sequence of calls."
  },
  {
   "property": "C64",
   "status": "partial",
   "theorems": [
    "C64_reads",
    "C64_lines_refuted",
    "C64_end_refuted",
    "C64_rar_refuted"
   ],
   "note": "Proved for every program of seek, tell, read and file_size on names that are not RAR volumes when there are at most two segments, or the servers do not tell the number of lines, or no read needs bytes of two segments. Refuted otherwise: segments of which only the first lines were grabbed are taken for whole ones; a read beyond the end raises IndexError; for names of RAR volumes the search for block headers shifts reads of intact data."
  },
  {
   "property": "C65",
   "status": "partial",
   "theorems": [
    "C65_settles",
    "C65_retries_refuted",
    "C65_open_refuted",
    "C65_none_refuted",
    "C65_seek_refuted"
   ],
   "note": "Proved for servers whose articles say the right part numbers: the result is that of the first download of a new file, servers in turn, that does not fail with one of the caught errors, for every reader when the name is not that of a RAR volume and for readers that begin like RarReader otherwise. Refuted: two downloads more are made than asked, the first opening is not tried again, the choice does not end without servers, and the memory of a seek survives init_data."
  },
  {
   "property": "C66",
   "status": "partial",
   "theorems": [
    "C66_create",
    "C66_create_works",
    "C66_create_loses_refuted",
    "C66_create_tmp_refuted",
    "C66_srs_create",
    "C66_srs_create_works",
    "C66_rebuild",
    "C66_rebuild_works",
    "C66_rebuild_tmp_refuted",
    "C66_rebuild_loses_refuted",
    "C66_rebuild_wrong_refuted"
   ],
   "note": "Proved for every list of failing operations and every place where the program is stopped: other files are untouched, no part of a new file gets the name, without leave nothing happens, ending well means a complete file (with the CRC of the SRS file for a rebuild), and when no operation fails it ends well. Refuted: srr deletes the existing SRR file when creating fails and leaves its temporary file, srs leaves the first temporary file, deletes an existing sample when rebuilding fails, and a wrong sample keeps the name when it is stopped."
  },
  {
   "property": "C67",
   "status": "partial",
   "theorems": [
    "C67_found",
    "C67_sound",
    "C67_missed_refuted",
    "C67_sfv",
    "C67_nfo",
    "C67_disks",
    "C67_pack",
    "C67_only",
    "C67_cd_refuted"
   ],
   "note": "Proved: what is found are releases, each once, in order and none in another, and exactly the topmost ones when no other path has the path of a release in it; what makes a directory a release (SFV file, NFO file, disks in directories) or not (packs, names of parts, spaces). Refuted: a release in a directory whose name begins with the name of the release before it is missed; names like CD1-A-B are not recognised because {1-2} is no repetition."
  },
  {
   "property": "C68",
   "status": "partial",
   "theorems": [
    "C68_jpeg",
    "C68_table_partial",
    "C68_table_refuted",
    "C68_png",
    "C68_gif_partial",
    "C68_gif_refuted",
    "C68_ends",
    "C68_cover"
   ],
   "note": "Proved: the size found is that in the frame of a JPEG file that begins with JFIF, Exif, ICC_PROFILE or Adobe whatever blocks and padding come before the frame, that of every PNG file and that of every GIF file but for two sizes; the search for the frame always ends; posters are exactly the pictures of 630 by 1200. Refuted: a JPEG file that begins with a table is not recognised (bytes are compared with text) unless imghdr itself knows it; a GIF file of 17994 by 17993 is taken for a JPEG file."
  },
  {
   "property": "C69",
   "status": "partial",
   "theorems": [
    "C69_images",
    "C69_once",
    "C69_same_partial",
    "C69_case_refuted",
    "C69_short_refuted"
   ],
   "note": "Proved: exactly which images and archives of proofs are stored, for every tree of files, and that none is stored twice; a large image with the name of the NFO, SFV, M3U or RAR file is stored when that name is in small letters and has ten letters or a dash. Refuted: not when the name has capitals (the image's name is not lowered before it is compared), and not when it is short (the extension takes part in the comparison)."
  },
  {
   "property": "C70",
   "status": "partial",
   "theorems": [
    "C70_order",
    "C70_main_partial",
    "C70_main_refuted",
    "C70_extra",
    "C70_subs",
    "C70_proof",
    "C70_some",
    "C70_unwanted",
    "C70_first"
   ],
   "note": "Proved: the SFV files given are some of the list in its order; those in the directory of a release and of its disks are among them, those in directories for subtitles, covers, codecs and proofs and those named after subtitles are not; some file is given when one lists music or more than one file; the others are the unwanted ones; the first volumes are those of the sets. Refuted: the SFV files of the disks of a release whose group has a name that ends with 'subs' are left out (the pattern for Subs/CD1 matches X-CULTSUBS/CD1)."
  },
  {
   "property": "C71",
   "status": "partial",
   "theorems": [
    "C71_find_partial",
    "C71_find_refuted",
    "C71_run_partial",
    "C71_skip_refuted",
    "C71_same_refuted",
    "C71_status_refuted"
   ],
   "note": "Proved: in an input without names that differ in case only, join_fix_case finds a path exactly if it is there in some case; if all stored .srs files that are not in the output yet are of music and no name at the top is the last part of another, each of these is used once, with the track in the input folder or else in its own folder, is counted and removed, files that are in the output already are left alone and not used, and the other files are extracted without replacing any. Refuted: a .srs file that is not of music ends the run with FileNotFoundError (fix_tagging and the finally clause of fix_tracks both remove it); a .srs file at the top is mistaken for one of the same name in a folder; with two folders that differ in case a track is not found; the exit status is 1 on success, since fix_tracks returns nothing."
  },
  {
   "property": "C72",
   "status": "partial",
   "theorems": [
    "C72_samples",
    "C72_once",
    "C72_music",
    "C72_music_once",
    "C72_inside_partial",
    "C72_inside_refuted",
    "C72_srs_partial",
    "C72_srs_refuted",
    "C72_stem_refuted",
    "C72_name",
    "C72_full"
   ],
   "note": "Proved for every tree of files: get_sample_files gives, each once, exactly the videos with \"sample\" in their path, with an SFV file of their own beside them or with their name in an SFV file; get_music_files gives exactly the .mp3, .mp2 and .flac files, each once; if the path of the release has no \"sample\" in it, only the path inside the release matters; .srs files have distinct names if files that differ in the extension only are neighbours and no file has the name of another without its extension; only files with the stem of another keep their extension. Refuted: in a directory with \"sample\" in its path every video of a release is a sample; since itertools.groupby compares neighbours only, a.avi, a.b.avi and a.mkv give two .srs files one name; so do a.avi, a.mkv and a.avi.mp4."
  },
  {
   "property": "C73",
   "status": "proved",
   "theorems": [
    "C73_sfvs",
    "C73_music",
    "C73_above",
    "C73_all"
   ],
   "note": "For all lists of files: the copies of the SFV files follow the other files, those of main archives last; for music with absolute paths (those of the working directory) the NFO files come first in their order and the others follow by name; otherwise archives and .srr files with an SFV file stand directly above it, in order, all other files keep their order and no file is lost (no list with the same file twice, and no two SFV files of one archive)."
  },
  {
   "property": "C74",
   "status": "partial",
   "theorems": [
    "C74_check_partial",
    "C74_check_refuted",
    "C74_exclude_partial",
    "C74_both",
    "C74_exclude_refuted"
   ],
   "note": "Proved: if entries of all SFV files with one name have one CRC, exactly the .srs files are stored that can be read and have the CRC of the entry with their name, if there is one; other files are not touched and the order is kept. If no file is named by both options to leave out files, exactly those named by one are left out. Refuted: the CRCs of all SFV files are put in one dictionary by name, so for a release with two disks with tracks of the same name the correct .srs file of the first disk is dropped; a file that is named by both options is removed twice, which ends the program with ValueError (proved for every list in C74_both)."
  },
  {
   "property": "C75",
   "status": "partial",
   "theorems": [
    "C75_check_partial",
    "C75_compressed",
    "C75_empty",
    "C75_repack",
    "C75_duplicates",
    "C75_p2p",
    "C75_nofiles",
    "C75_ext",
    "C75_no_ext",
    "C75_image_partial",
    "C75_noproof_partial",
    "C75_image_refuted",
    "C75_noproof_refuted",
    "C75_nfos_never",
    "C75_nfos_refuted"
   ],
   "note": "Proved for every well-formed SRR file: without -p and -t, a file is listed exactly if one of the options given asks for it, and each check by itself is exact (compressed files, no RAR data, repack, duplicates, upper-case RAR names, no stored files, with or without an extension). Refuted: images with an extension in capitals or .jpeg are not found (the tuple has \"jpeg\" without the dot); with -p a first image that is a proof hides the other images (proved: the first image decides); the check for two or more NFO files sets its count to zero at every block, so it is never true (C75_nfos_never, for all files)."
  },
  {
   "property": "C76",
   "status": "partial",
   "theorems": [
    "C76_entries",
    "C76_same_partial",
    "C76_case_refuted",
    "C76_order_refuted"
   ],
   "note": "Proved for all bytes: an SFV file has exactly one list of entries by the specification of C17; if same_sfv is true, the two files have the same entries but for order and case; it is true if names agree in case, no name is repeated, and the names are no .rar files or those of one volume set, whatever order, comments and case of CRCs. Refuted in general: names that differ in case are equal for __eq__ but sorted by case, so that files with the same entries are called different; since __lt__ is not transitive (C18_cycle_refuted), a file with its lines in another order can be different from itself."
  },
  {
   "property": "C77",
   "status": "partial",
   "theorems": [
    "C77_line",
    "C77_amps",
    "C77_file_partial",
    "C77_closed",
    "C77_sound",
    "C77_twice_refuted",
    "C77_thrice_refuted",
    "C77_hex_refuted",
    "C77_never",
    "C77_empty_error",
    "C77_empty_refuted"
   ],
   "note": "Proved for all bytes: the repaired line is exactly the one of the specification (ampersands that begin no reference are escaped, zero bytes go, &ouml; becomes one byte), every ampersand of the result begins a reference, a file without faults is not changed, a missing closing tag is added and one of two equal lines with the closing tag is removed; the result always has a closing tag. Refuted: the tag twice stays, if the last line has no newline; of three tags two stay; hexadecimal references with capitals are escaped although they are good XML; empty files are not handled: a closing tag is written first, so the test for an empty result is never true (C77_never, for all files) and the error of the parser is raised."
  },
  {
   "property": "C78",
   "status": "partial",
   "theorems": [
    "C78_archives_partial",
    "C78_languages_partial",
    "C78_archives_refuted",
    "C78_languages_refuted",
    "C78_start",
    "C78_listed"
   ],
   "note": "Proved for all trees of archives in archives in which no two first volumes in one folder have the same name but for the last four letters: one SRR file is made for each set of the SFV file that can be extracted, with the SRR files of the sets in it at every depth and no others (C78_archives_partial), and the languages of each .idx file are added to languages.diz once, with nothing else (C78_languages_partial); the choice of the archive for an SFV file that lists none (C78_start, C78_listed). Refuted: of x.rar and x.001 in one folder only one gets an SRR file, stored twice in the list of results, and languages.diz is not removed between SFV files, so the SRR file of the second has the languages of the first. The order of the sections is not part of the property."
  },
  {
   "property": "C79",
   "status": "partial",
   "theorems": [
    "C79_content_partial",
    "C79_together_partial",
    "C79_apart_refuted",
    "C79_old_refuted",
    "C79_name_refuted",
    "C79_again_refuted",
    "C79_clean",
    "C79_longest",
    "C79_release"
   ],
   "note": "Proved for all lists of files, all ways to find names and all output folders: what every NZB file of the output folder has in the end (C79_content_partial), so that nothing is lost if the files of a release are together and nothing was there before (C79_together_partial), other files are not touched, the characters of the names (C79_clean) and the choice of the longest word of the subject (C79_longest). Refuted: the NZB file of the last release is overwritten, so its files from earlier in the list and those of an earlier run are lost; files are lost if nothing is left of the name; a list without files leaves an empty .nzb file, and every later run fails because it cannot be parsed. The regular expressions for names are parameters."
  },
  {
   "property": "C80",
   "status": "partial",
   "theorems": [
    "C80_copied_partial",
    "C80_stored",
    "C80_refuted",
    "C80_case",
    "C80_missing",
    "C80_srs_partial"
   ],
   "note": "Proved for every release in which no two files of a folder have names that are equal but for case: each file is copied to the same place in the working directory with its name and contents, nothing else changes, and the copy is stored under the path of the file in the release; .srs files of the release are copied once each unless one was made for the same place. A name with other capitals stands for the one file that is meant, a missing file changes nothing. Refuted for X.nfo beside x.nfo: both are copied from the first to one place and the second is lost. Folders can always be made and files always be read and written."
  },
  {
   "property": "C81",
   "status": "partial",
   "theorems": [
    "C81_one_each",
    "C81_best",
    "C81_refused",
    "C81_first_refuted",
    "C81_sfvs",
    "C81_end_partial",
    "C81_end_refuted",
    "C81_store",
    "C81_twice_refuted",
    "C81_nfo_refuted",
    "C81_name",
    "C81_name_refuted"
   ],
   "note": "Proved for every NZB file: of the files with one name the first of the biggest is used; no SRR file is made just when such a file is a RAR file without segment 1 or a repack; the SFV files are one for each name, the first of those with most entries and then comments; what is stored is exactly characterised, those ending with .nfo first; a quoted name is found. That SFV files of extras come last is proved if no two of them are neighbours in the sorted list and refuted otherwise, for the list is changed while it is gone through. Also refuted: a file posted twice is stored twice, also in its smaller version; X.NFO does not come first; a RAR file posted in two parts is refused as incomplete though segment 1 is there; different files without quotes in their subject get one name (yEnc) and all but one are lost. Downloads are oracles that give the same each time; SFV files of different names have different segments."
  },
  {
   "property": "C82",
   "status": "partial",
   "theorems": [
    "C82_from_first",
    "C82_once",
    "C82_ends",
    "C82_first_partial",
    "C82_first_refuted",
    "C82_sfv",
    "C82_sfv_any",
    "C82_sets",
    "C82_twice_refuted",
    "C82_gap_refuted",
    "C82_case_refuted",
    "C82_error_refuted"
   ],
   "note": "Proved for every set named in a known style: from its first volume all volumes before the first that lacks are found, in order; from an SFV file of a set all its volumes in order and once, and several SFV files follow each other in the given order; for any file what is found is there and once and the search ends; for any SFV file no volume is lost and nothing else is taken. That a set can only be started with its first volume is proved but for names with .part and refuted for these. Also refuted: a volume with two sums in an SFV file is taken twice; a missing second volume hides the rest without an error; a set with names in capitals is lost but for its first volume; a RAR file that cannot be read gives AttributeError, which is not expected by rescene/srr.py, because a path has no init_data."
  },
  {
   "property": "C83",
   "status": "partial",
   "theorems": [
    "C83_content",
    "C83_made",
    "C83_sfv",
    "C83_missing",
    "C83_unknown",
    "C83_no_sfv_partial",
    "C83_case_refuted",
    "C83_skip_refuted",
    "C83_size_refuted",
    "C83_end_refuted",
    "C83_twice_refuted"
   ],
   "note": "Proved for all posted files: what is made is the SRR file that create_srr makes of the same files, with a posted file of the same name but for capitals for each collected name, in order, and all last segments are there if any volume has an end block; from SFV files of sets that are posted completely it is made; a volume that no file fits is told as not found; no volume of an SFV file is lost. Without an SFV file of use the one posted set is used whatever else is posted (C83_no_sfv_partial: missing are several sets and sets of one volume). Refuted: capitals in both names; a file to store that cannot be read is left out without an error; a told size that is wrong makes an SRR file that cannot be read; without end blocks incomplete volumes are taken; the second attempt takes volumes twice, since the names with other capitals were added to the files in the first one."
  },
  {
   "property": "C84",
   "status": "partial",
   "theorems": [
    "C84_version",
    "C84_only",
    "C84_known",
    "C84_kept_partial",
    "C84_lost_refuted",
    "C84_name_refuted",
    "C84_stop_refuted"
   ],
   "note": "Proved for all names: a version is found in every name of an installer that can be read in one way only, and in such names only; for all installers: every executable that is made has a name that load_rar_executables reads with the date and version of the installer it comes from, and for each installer that is to be used there is an executable of this name (C84_kept_partial). Refuted: the programs of the 32-bit and 64-bit installers of a version of one day get the same name and one is lost; names like rarlinux-x32-623.tar.gz are not known; an installer that cannot be read stops the use of the others."
  },
  {
   "property": "C85",
   "status": "partial",
   "theorems": [
    "C85_sorted",
    "C85_kept_partial",
    "C85_kept_refuted",
    "C85_dry_partial",
    "C85_dry_refuted",
    "C85_stat_partial",
    "C85_stat_refuted"
   ],
   "note": "Proved for all folders and outcomes: exactly the NZB files directly in the folder are handled, until one ends the program; each is then in the folder of its outcome, or where it was if the network failed, and nothing else is changed but files that are replaced; without files of the same name in the new folders nothing is lost (C85_kept_partial); a dry run moves nothing if all attempts fail with errors of server, network or program (C85_dry_partial); the test of the last segment tells whether it is there or the first server has it (C85_stat_partial). Refuted: a file with the same name in the new folder is replaced; a dry run moves every good NZB file to the bad ones, since no SRR file is made; other servers are connected to, but never asked for the last segment."
  },
  {
   "property": "C86",
   "status": "partial",
   "theorems": [
    "C86_total",
    "C86_found",
    "C86_none",
    "C86_exact_partial",
    "C86_same",
    "C86_long_refuted",
    "C86_byte_refuted",
    "C86_range_refuted"
   ],
   "note": "Proved for all files, ranges within the file, sizes of parts and modes, with and without assertions: the search never ends with an error; what it writes has the expected CRC, is changed at one place of the range, and is the first such place; nothing is found exactly if no change has the CRC; a change of one bit or two neighbouring bits of a file below 512 MiB is always found as it was (C86_exact_partial, by the period of the CRC polynomial); the byte search on a right file writes the same file. Refuted: in a file of exactly 2^29 bytes another bit can be taken, since the CRC repeats after 2^32-1 bits; the byte search can take another byte in a file of 145213 bytes; an invalid range is only told about and then ends with a KeyError."
  },
  {
   "property": "C87",
   "status": "partial",
   "theorems": [
    "C87_blocks",
    "C87_set",
    "C87_neighbours",
    "C87_packed",
    "C87_volume_partial",
    "C87_date",
    "C87_first_partial",
    "C87_later_partial",
    "C87_alone",
    "C87_split_refuted",
    "C87_stored_refuted",
    "C87_mixed_refuted",
    "C87_padding_refuted",
    "C87_solid"
   ],
   "note": "Proved for all lists of SRR blocks: the file blocks taken for a block are exactly those of all volumes of its archive, in order; the set name of a volume; the neighbours of a block; the packed size of a file is the sum over its parts; the size of the first volume; the most recent day of the files; which files start a solid archive, reuse the first one, or are compressed alone. Refuted: the first file of a solid archive that goes on in the next volume is compressed alone and followed by itself; a solid archive of which the first file was not compressed gives a KeyError; the neighbouring archives a.rar and a.part1.rar are taken for one; padding behind the end block is not counted in the size of the volume, which is that of the first volume of the whole SRR file."
  },
  {
   "property": "C88",
   "status": "partial",
   "theorems": [
    "C88_partial",
    "C88_hints",
    "C88_last",
    "C88_drive_refuted",
    "C88_twice_refuted",
    "C88_unknown_refuted",
    "C88_wrong_refuted",
    "C88_pattern_refuted"
   ],
   "note": "Proved for all disks, folder listings, hints, names and sizes: the file at the place of its name or its last hint is taken if its size is right or not known; without one the first file below the folder with the extension and size, if renamed files are searched; each error exactly when it applies (C88_partial, both directions); the texts accepted for hints are exactly pairs without colons and semicolons, and the last hint of a name counts. Missing: hints that are absolute or leave the folder, extensions with pattern characters. Refuted: a hint with a drive letter cannot be given; two archived files can be found at the same place; a renamed file of unknown size is never found; a file with the right name and a wrong size stops the search; the extension is taken as a pattern."
  },
  {
   "property": "C89",
   "status": "partial",
   "theorems": [
    "C89_search_partial",
    "C89_old",
    "C89_old_refuted",
    "C89_more_refuted",
    "C89_missing_refuted",
    "C89_folder_refuted"
   ],
   "note": "Proved for all executables, settings of threads, blocks with a CRC and any oracle for what works: the commands tried are, for each executable in order, all allowed numbers of threads from low to high, first with the data alone and then behind the file before; the first command that works is the result, its options are those of the block and of the version (C89_search_partial), and nothing is found only if no command works. Missing: blocks without CRC and trying with the file behind. Refuted: for a block of RAR 2.0x without CRC the search always ends with UnboundLocalError (C89_old); the file behind is only used with the first executable; KeyError if the file before was not compressed; the options of the version are also taken from the name of the folder."
  },
  {
   "property": "C90",
   "status": "partial",
   "theorems": [
    "C90_fix",
    "C90_store_partial",
    "C90_other",
    "C90_sub_refuted",
    "C90_twice_refuted"
   ],
   "note": "Proved for all names without a line break: is_storable_fix is true just for the names described by a separate specification (C90_fix); for a RAR file whose name has the capitals of the file on disk it is stored just if the release is such a fix and not on the list of exceptions, there is one SFV file with one entry and it has not been copied (C90_store_partial); with other numbers of SFV files or RAR sets nothing is stored (C90_other). Missing: names in the SFV file with other capitals. Refuted: fixes of subtitles and the like, which the comment excludes, are taken by the second expression; a file that was already copied as a proof is added again if the SFV file has its name without the capitals."
  },
  {
   "property": "C91",
   "status": "partial",
   "theorems": [
    "C91_made",
    "C91_rebuild",
    "C91_keeps",
    "C91_left_refuted",
    "C91_capital_refuted"
   ],
   "note": "Proved for all RAR volumes of the block model: for a .vob sample that is a RAR volume an SRR file that holds just this volume is put beside the SRS file, under a free name, with no other change (C91_made), and the sample is made again from it if nothing is compressed (C91_rebuild); for all inputs files that are there stay as they are and only files that were made are listed (C91_keeps). Refuted: a broken RAR file leaves the temporary file; a sample whose name ends in .VOB gets no SRR file."
  },
  {
   "property": "C92",
   "status": "partial",
   "theorems": [
    "C92_works",
    "C92_ok",
    "C92_all_partial",
    "C92_order",
    "C92_removed",
    "C92_single_refuted",
    "C92_overwrite",
    "C92_folder_refuted",
    "C92_output"
   ],
   "note": "Proved for all folders and all outcomes of the single releases: the exit status is 0 just if every release has its SRR file (C92_ok), with -r all releases are gone through and just those without SRR file listed unless one ends with another error than a missing file (C92_all_partial), releases are taken in order (C92_order), the working directory is removed just if there is an exit status (C92_removed), and existing SRR files are overwritten just with consent (C92_overwrite). Refuted: without -r a missing file ends the program before the next release; the output folder is made without asking."
  },
  {
   "property": "C93",
   "status": "partial",
   "theorems": [
    "C93_list",
    "C93_total_partial",
    "C93_video",
    "C93_dot_refuted",
    "C93_file_refuted",
    "C93_first_refuted"
   ],
   "note": "Proved for all folders whose names hold no line break: the printed lines are those of the releases, of those without NFO file and of those without video file in the first folder for samples (C93_list); the listing ends if all folders can be listed (C93_total_partial); exactly which names count as video (C93_video). Refuted: a video file needs no extension (the dots are not escaped); a file named Sample ends the listing; just the first folder for samples counts."
  },
  {
   "property": "C94",
   "status": "partial",
   "theorems": [
    "C94_start",
    "C94_stop",
    "C94_choose",
    "C94_status",
    "C94_name",
    "C94_shown_partial",
    "C94_capital_refuted",
    "C94_shown_refuted",
    "C94_slash_refuted"
   ],
   "note": "Proved for all input files, options and outcomes of the functions of the package: what is started (C94_start), the one option that is followed (C94_choose), when the exit status is 0 (C94_status), the name of the SRR file that is made (C94_name) and the names shown of extracted files for output folders in normal form (C94_shown_partial). Refuted: a.SRR is taken for a file to make an SRR file of; with a slash at the end of the output folder the first letter of shown names is missing; with a slash at the end of the input folder -d makes a file named .srr."
  },
  {
   "property": "C95",
   "status": "partial",
   "theorems": [
    "C95_fix",
    "C95_file_partial",
    "C95_none",
    "C95_size_refuted",
    "C95_order_refuted"
   ],
   "note": "Proved for all data read from the file: the fixed data is a seek head with all old entries and the new place of the Info element, zeros and the Info element without title (C95_fix); in the copy nothing else is changed or moved and the Info element is where its entry says, if the space left has a length of two bytes (C95_file_partial); when no copy is made (C95_none). Refuted: the data is one byte too short if less than 131 bytes are left; entries are ordered by bytes and not by position."
  },
  {
   "property": "C96",
   "status": "partial",
   "theorems": [
    "C96_string",
    "C96_stripped_partial",
    "C96_suffix",
    "C96_output",
    "C96_attempts",
    "C96_clean_partial",
    "C96_clean_refuted",
    "C96_start_refuted",
    "C96_frame_refuted",
    "C96_short_refuted"
   ],
   "note": "Proved for all files and all behaviours of fpcalc: the first Xing/LAME string is found, also across batches (C96_string); exactly which data is written (C96_stripped_partial; intended is the data from the last frame before the string); just data before the string is left out (C96_suffix); the output of fpcalc is read right (C96_output); the result is that of the first of three attempts that gives one (C96_attempts); no temporary file stays after a result or for an ASCII name (C96_clean_partial). Refuted: the offset of the sync is subtracted instead of added, the byte after 0xFF is not looked at, a string in the first 256 bytes is an error, the copy of a file without ASCII name stays after a failure."
  },
  {
   "property": "C97",
   "status": "partial",
   "theorems": [
    "C97_sample",
    "C97_main_partial",
    "C97_python3",
    "C97_keep",
    "C97_python3_refuted",
    "C97_over_refuted",
    "C97_name_refuted",
    "C97_dot_refuted"
   ],
   "note": "Proved for all options, arguments and disks: exactly which names are those of samples (C97_sample); in Python 2 the NZB files of the samples hold the samples that are not too large in their order and nothing else changes, if no place is used twice or is that of an NZB file given (C97_main_partial); in Python 3 empty files are made instead (C97_python3); just files at such places can change (C97_keep). Refuted: Python 3 writes bytes to a text file; NZB files given are overwritten if the output folder is theirs; two NZB files of the same name give one; the dot before par2 is any character."
  },
  {
   "property": "C98",
   "status": "partial",
   "theorems": [
    "C98_merge",
    "C98_unread",
    "C98_python3",
    "C98_main_partial",
    "C98_nothing",
    "C98_cwd_refuted",
    "C98_python3_refuted",
    "C98_left_refuted",
    "C98_dir_refuted"
   ],
   "note": "Proved for all folders and all contents: in Python 2 the NZB files that are seen are merged into that of the shortest name, from short to long names, and nothing else changes but the removal of the others (C98_merge); unreadable NZB files leave all unchanged (C98_unread); in Python 3 the NZB file of the shortest name is emptied (C98_python3); a run without error merges exactly the releases that are also folders of the current folder (C98_main_partial, C98_nothing). Refuted: folders are looked up in the current folder, for releases and for NZB files; Python 3 loses files; a folder with the name of an NZB file is an error."
  },
  {
   "property": "C99",
   "status": "partial",
   "theorems": [
    "C99_about",
    "C99_main_partial",
    "C99_stay",
    "C99_lost_refuted",
    "C99_folder_refuted",
    "C99_capital_refuted",
    "C99_empty_refuted",
    "C99_new_partial"
   ],
   "note": "Proved for all folders and NZB files: which name is taken and what counts as music (C99_about); if the folders are there and no names clash, each NZB file that can be read is moved under its new name and nothing else is changed (C99_main_partial); other files stay in any case (C99_stay). Refuted: a second NZB file of the same release overwrites the first; with a folder processed but without music and other in it, the NZB files are moved over each other; capitals in the extension of music; NZB files without a name found become .nzb."
  },
  {
   "property": "C100",
   "status": "partial",
   "theorems": [
    "C100_group",
    "C100_scene",
    "C100_main_partial",
    "C100_keep",
    "C100_nolist",
    "C100_folder",
    "C100_done",
    "C100_lost_refuted",
    "C100_list_refuted",
    "C100_small_refuted"
   ],
   "note": "Proved for all lists, names and folders: the group of a name (C100_group) and which names are taken (C100_scene); if nothing is at the destinations and no two are the same, all releases of the groups of the list are moved, each is whole at its destination, and nothing else is changed (C100_main_partial); everything else stays in any case (C100_keep); without the list nothing is moved (C100_nolist); folders are never lost (C100_folder); a release that is not there stops the program (C100_done). Refuted: files of the same name in two folders overwrite each other with -o; a list that is not there gives UnboundLocalError; groups without capitals are never moved."
  },
  {
   "property": "C101",
   "status": "partial",
   "theorems": [
    "C101_groups",
    "C101_series",
    "C101_together_partial",
    "C101_unsorted_refuted",
    "C101_line_refuted"
   ],
   "note": "Proved for all lists: count_groups prints each group once with the number of its releases, in the order of the numbers (C101_groups); group_series prints each series once, but with the length of its last run in the list (C101_series), which is its number of releases if they are together (C101_together_partial). Refuted: group_series counts too few in a list that is not sorted (groupby without sorting); the last line of a file without line feed is counted as another group by count_groups."
  },
  {
   "property": "C102",
   "status": "partial",
   "theorems": [
    "C102_date",
    "C102_first",
    "C102_show_partial",
    "C102_move_partial",
    "C102_kept",
    "C102_far_refuted",
    "C102_limit_refuted",
    "C102_over_refuted"
   ],
   "note": "Proved for all folders, limits and times: the date of a line and of a file (C102_date, C102_first); with no date after the year 9999, the NZB files shown or moved are exactly those with an age strictly between the limits, and nothing else is changed (C102_show_partial, C102_move_partial); no file of the folder is ever lost (C102_kept). Refuted: a date after the year 9999 stops the program; files just as old as a limit are left out; a file of the same name in the output folder is overwritten."
  },
  {
   "property": "C103",
   "status": "partial",
   "theorems": [
    "C103_dupes_partial",
    "C103_uniques_partial",
    "C103_last_refuted",
    "C103_once_refuted"
   ],
   "note": "Proved for all pairs of lists in which every line has a line end (LF, CR LF or CR): the duplicates are the lines in both, the uniques those only in the new list, each printed once (C103_dupes_partial, C103_uniques_partial). Refuted without a line end at the end of a list: a release in both lists is shown as new, and a release can be printed twice. The script opens files with mode \"U\", which Python 3.11 and later refuse; older versions are modelled."
  }
 ]
}