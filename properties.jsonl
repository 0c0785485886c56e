{"id": "C01", "title": "SRR create/reconstruct round trip is byte identical", "statement": "Creating an SRR from a set of store-mode (uncompressed) RAR volumes and then reconstructing from that SRR plus the extracted files writes, for every volume, a file whose bytes equal the original volume - header blocks, packed data, recovery records and bytes after the end-of-archive block included.", "quantifier": "for every set of well-formed store-mode RAR 1.5-4.x volumes (any number of volumes, blocks, block sizes, split points, contents, padding), every extracted file content", "why_tests_cant": "The tests rebuild a handful of sample archives; the claim ranges over every legal block sequence, every split of files over volumes, every header length and every data length.", "anchors": ["rescene/main.py:create_srr", "rescene/main.py:reconstruct", "rescene/main.py:_repack", "rescene/main.py:_write_recovery_record", "rescene/rar.py:RarReader._read"]}
{"id": "C02", "title": "SRR blocks survive writing and re-reading", "statement": "Every block the tool writes to an SRR file (application header, stored file, RAR volume marker, ISDb hash, padding) is read back with exactly the fields it was created with: names, sizes, hash and data; a file that is a concatenation of such blocks is read back as exactly that list of blocks, in order.", "quantifier": "for every application name, file name, size, hash and content the constructors accept, and every sequence of blocks", "why_tests_cant": "Field values and lengths range over unbounded text and 16/32/64 bit numbers; off-by-one limits (0xFFF2, 0xFFF6, 2^32-1) are only hit at rare sizes.", "anchors": ["rescene/rar.py:SrrHeaderBlock", "rescene/rar.py:SrrStoredFileBlock", "rescene/rar.py:SrrRarFileBlock", "rescene/rar.py:SrrOsoHashBlock", "rescene/rar.py:SrrRarPaddingBlock", "rescene/rar.py:RarReader._read"]}
{"id": "C03", "title": "Stored files are extracted with their exact bytes", "statement": "Extracting an SRR creates for every stored file a file at the output folder joined with its stored (or base) name holding exactly the stored bytes, and changes no other file.", "quantifier": "for every SRR, every output folder, every selection of names and every file system state", "why_tests_cant": "Interplay of stored order, duplicate names, pre-existing files and offsets inside the SRR cannot be enumerated.", "anchors": ["rescene/main.py:extract_files", "rescene/main.py:_extract", "rescene/main.py:_opath", "rescene/rar.py:SrrStoredFileBlock.srr_data"]}
{"id": "C04", "title": "Adding stored files leaves the rest of the SRR untouched", "statement": "After adding files to an SRR, the SRR holds all the blocks it held before, byte identical and in the same order, plus one stored-file block per added file with that file's name and bytes, placed together right before the first RAR volume block (or at the end if there is none).", "quantifier": "for every SRR file with its recovery data removed, every list of files to add", "why_tests_cant": "Requires quantifying over all block sequences before and after the insertion point; tests only check listings of a few files.", "anchors": ["rescene/main.py:add_stored_files", "rescene/main.py:_store", "rescene/main.py:_store_fh"]}
{"id": "C05", "title": "Removing stored files removes exactly the named files", "statement": "After removing names from an SRR, the SRR is the original with exactly the stored-file blocks whose name is in the list deleted and every other byte unchanged; adding files and then removing them by name gives back the original bytes.", "quantifier": "for every SRR file and every list of names", "why_tests_cant": "Same reason as C04: the claim is about all the bytes that must not change, for every SRR.", "anchors": ["rescene/main.py:remove_stored_files"]}
{"id": "C06", "title": "Renaming a stored file changes only the name", "statement": "Renaming a stored file yields an SRR that reads back as the same list of blocks with only the first stored file of that name renamed; all stored contents and RAR metadata are unchanged and the result is again a readable SRR; an unknown name changes nothing and is reported.", "quantifier": "for every SRR, every old and new name", "why_tests_cant": "New names of any length shift all later bytes; only a proof over all lengths shows no byte is lost.", "anchors": ["rescene/main.py:rename_stored_file", "rescene/rar.py:SrrStoredFileBlock.renameto"]}
{"id": "C07", "title": "Merging SRR files keeps every block", "statement": "Merging SRR files gives a readable SRR with one header (requested name, else the first non-empty one), then all stored files of all inputs in order with their bytes, then all the other blocks of all inputs in order, byte identical.", "quantifier": "for every non-empty list of SRR files and every requested application name", "why_tests_cant": "Quantifies over lists of arbitrary files.", "anchors": ["rescene/main.py:merge_srrs"]}
{"id": "C08", "title": "Extraction and reconstruction never write outside the output folder", "statement": "Every path written while extracting stored files or reconstructing volumes is the output folder followed by one or more ordinary path components (never empty, '.', '..' and never containing a separator), whatever names a hostile SRR file holds; names that cannot be placed there are rejected with an error.", "quantifier": "for every SRR file (hostile ones included) and both path options", "why_tests_cant": "An attacker chooses the names; tests try a few traversal strings only.", "anchors": ["rescene/main.py:_opath", "rescene/rar.py:_SrrFileNameBlock.os_file_name", "rescene/utility.py:joinpath", "rescene/main.py:reconstruct", "rescene/main.py:extract_files"]}
{"id": "C09", "title": "Stored names never point outside the release folder", "statement": "When files are stored with their relative paths, a file located outside the input folder is stored under its base name only, so no stored name starts with '..'.", "quantifier": "for every input folder and every file path", "why_tests_cant": "Depends on how two arbitrary paths relate.", "anchors": ["rescene/main.py:_store"]}
{"id": "C10", "title": "Existing files are never overwritten without permission", "statement": "With the default overwrite policy, creating an SRR, extracting stored files and reconstructing volumes never change or delete a file that existed before the call.", "quantifier": "for every SRR, every initial file system, every set of names", "why_tests_cant": "The set of files that pre-exist is arbitrary, also names written earlier in the same run.", "anchors": ["rescene/main.py:can_overwrite", "rescene/main.py:_extract", "rescene/main.py:reconstruct", "rescene/main.py:create_srr"]}
{"id": "C11", "title": "Editing an SRR is crash safe", "statement": "Whatever the point at which the process dies (or a file operation fails) while files are added to, removed from or renamed in an SRR, the SRR path holds either the complete old or the complete new content.", "quantifier": "for every crash point and every failing file operation of an edit", "why_tests_cant": "Crash points cannot be enumerated by unit tests that run to completion.", "anchors": ["rescene/main.py:add_stored_files", "rescene/main.py:remove_stored_files", "rescene/rar.py:SrrStoredFileBlock.renameto"]}
{"id": "C12", "title": "Replacing a result never loses both files", "statement": "Moving a finished temporary file over its destination either succeeds (destination holds the new bytes, temporary gone), or leaves the destination's old bytes in place; when there is no temporary file nothing changes.", "quantifier": "for every file system state, every crash point and every failing unlink or rename", "why_tests_cant": "Failure and interleaving points of the unlink/rename pair are not reachable in tests.", "anchors": ["rescene/utility.py:replace_result", "rescene/utility.py:create_temp_file_name"]}
{"id": "C13", "title": "A file read through its RAR volumes behaves like the file itself", "statement": "A read-only stream opened on a store-mode RAR set answers every sequence of seek, tell and read calls exactly like an ordinary file holding the concatenated packed data.", "quantifier": "for every split of the file over volumes, every sequence of seeks (all three origins) and reads (any size)", "why_tests_cant": "Unbounded operation sequences and split points.", "anchors": ["rescene/rarstream.py:RarStream.__init__", "rescene/rarstream.py:RarStream.seek", "rescene/rarstream.py:RarStream.read"]}
{"id": "C14", "title": "ISDb hash equals its definition", "statement": "The computed hash is the 16 digit hexadecimal form of (file size + sum of the 8192 little-endian 64-bit words of the first 64 KiB + the same for the last 64 KiB) modulo 2^64, and files under 64 KiB are refused.", "quantifier": "for every file content of any size", "why_tests_cant": "64 bit wrap-around at each addition and overlapping ends, for all contents.", "anchors": ["rescene/osohash.py:_osorg_hash", "rescene/osohash.py:_length"]}
{"id": "C15", "title": "Combining two CRC-32 values gives the CRC-32 of the concatenation", "statement": "crc32_combine(crc32(a), crc32(b), len(b)) equals crc32(a+b).", "quantifier": "for all byte strings a and b of any length", "why_tests_cant": "The algorithm squares 32x32 bit matrices per bit of the length; only algebra covers every length.", "anchors": ["rescene/crc32combine.py:crc32_combine"]}
{"id": "C16", "title": "Chunked file CRC equals the CRC of the whole file", "statement": "The CRC-32 computed for a file by reading it in 64 KiB pieces is the standard CRC-32 of all its bytes (polynomial division definition), whatever the file's size.", "quantifier": "for every file content", "why_tests_cant": "All lengths around chunk boundaries and all contents.", "anchors": ["rescene/utility.py:calculate_crc32"]}
{"id": "C17", "title": "Every SFV line is accounted for", "statement": "Parsing SFV data puts each non-blank line in exactly one of entries, comments or errors, in order; well-formed 'name crc' lines become entries with exactly that name and an 8 digit CRC; no input makes the parser fail.", "quantifier": "for every byte string", "why_tests_cant": "Arbitrary bytes: tabs, CR/LF mixes, quotes, high bytes.", "anchors": ["rescene/utility.py:parse_sfv_data", "rescene/utility.py:SfvEntry"]}
{"id": "C18", "title": "SFV entries are put in volume order", "statement": "Comparing SFV entries is a strict total order on distinct names so that sorting is well defined, and the sorted, de-duplicated list of a RAR set is its volumes in extraction order (.rar, .r00 .. .r99, .s00 ..; or part01, part02 ..) whatever the order in the SFV.", "quantifier": "for every list of entries and every permutation of it", "why_tests_cant": "Order laws (transitivity) over all triples and all permutations.", "anchors": ["rescene/utility.py:SfvEntry.__lt__", "rescene/utility.py:filter_sfv_duplicates"]}
{"id": "C19", "title": "Volume names are enumerated in RAR order", "statement": "Starting at the first volume name, repeatedly asking for the next archive name enumerates exactly the names RAR uses, in order, for old style (.rar, .r00 .. .r99, .s00 .. .z99), new style (.partN.rar with fixed width) and numeric (.000 ..) naming.", "quantifier": "for every base name, every digit width and every volume number representable at that width", "why_tests_cant": "All base names and carries over any number of digits.", "anchors": ["rescene/utility.py:next_archive"]}
{"id": "C20", "title": "First volume detection", "statement": "Given the file names of a complete RAR set in any naming style, exactly the first volume is selected, and is_rar accepts exactly names ending in .rar, .[r-z]NN or .NNN (case insensitive).", "quantifier": "for every base name and every list of names", "why_tests_cant": "Regular expression semantics over all names.", "anchors": ["rescene/utility.py:first_rars", "rescene/utility.py:is_rar"]}
{"id": "C21", "title": "Dictionary switch matches the block flags", "statement": "The dictionary size switch and size derived from a file block's flags are the ones of the 3 bit dictionary field (64 KiB << field), for every flags value of a non-directory.", "quantifier": "for all 65536 flag values", "why_tests_cant": "Mask tests overlap; which test wins depends on the order for every combination of unrelated flag bits.", "anchors": ["rescene/rar.py:RarPackedFileBlock.get_dictionary_size_parameter", "rescene/rar.py:RarPackedFileBlock.get_dict_size"]}
{"id": "C22", "title": "RAR Unicode file names decode to the original name", "statement": "Decoding a compressed Unicode file name gives the name it was encoded from, for every encoding of it that the RAR format allows (literal low byte, high-byte shorthand, two byte literal, run copies with and without correction).", "quantifier": "for every 16-bit name, every ASCII companion name and every choice of opcodes", "why_tests_cant": "The encoder has freedom at each character; tests hold a few recorded headers.", "anchors": ["rescene/rar.py:UnicodeFilename.decode"]}
{"id": "C23", "title": "Time stamps decode to the encoded moment", "statement": "Decoding an MS-DOS time stamp returns exactly the year, month, day, hour, minute and (even) second that were packed in it.", "quantifier": "for every 32 bit stamp", "why_tests_cant": "2^32 stamps.", "anchors": ["rescene/rar.py:_parse_dos_time"]}
{"id": "C24", "title": "Recovery record layout", "statement": "The data written for a recovery record is, for the volume written so far cut in 512 byte sectors (last one zero padded): two bytes per sector holding the low 16 bits of the inverted CRC-32, then one 512 byte parity sector per slice, each byte being the XOR of the bytes at that position of all sectors of the slice.", "quantifier": "for every volume content and every recovery sector count", "why_tests_cant": "Carried out on big integers of 4096 bits; equivalence with byte-wise parity must hold for all contents.", "anchors": ["rescene/main.py:_write_recovery_record"]}
{"id": "C25", "title": "Reported volume sizes are the real sizes", "statement": "The size listed for each RAR volume of an SRR equals the size in bytes of the original volume, and every volume of the SRR is listed.", "quantifier": "for every set of volumes and names", "why_tests_cant": "Sizes come from headers, packed sizes, recovery sizes and padding in any combination.", "anchors": ["rescene/main.py:info"]}
{"id": "C26", "title": "The content hash depends on the RAR metadata only", "statement": "Two SRR files that hold the same RAR volumes' metadata have the same content hash whatever their application name, stored files, and volume order; and the hashed text contains the metadata of every volume.", "quantifier": "for every SRR and every edit of its stored files", "why_tests_cant": "All edits and orders.", "anchors": ["rescene/main.py:content_hash", "rescene/main.py:info"]}
{"id": "C27", "title": "Reconstructing one volume gives the same bytes as reconstructing all", "statement": "Reconstruction restricted to one volume writes exactly the file that full reconstruction would write for that volume, and no other volume.", "quantifier": "for every SRR and every choice of volume", "why_tests_cant": "Depends on where files start and end relative to volumes.", "anchors": ["rescene/main.py:reconstruct"]}
{"id": "C28", "title": "Silent reconstruction implies matching CRCs", "statement": "If reconstruction runs with CRC checking and reports no CRC problem, then each archived file's bytes taken from disk have the CRC-32 recorded in the archive.", "quantifier": "for every SRR and all source files", "why_tests_cant": "Any corruption of any source file.", "anchors": ["rescene/main.py:_repack", "rescene/main.py:reconstruct"]}
{"id": "C29", "title": "EBML lengths survive encoding", "statement": "Decoding the EBML variable-length encoding written for a length gives that length back, the encoding announces its own width in its first byte, and the encoding is the shortest one.", "quantifier": "for every length the encoder accepts", "why_tests_cant": "2^49 values; boundaries at each width.", "anchors": ["resample/ebml.py:MakeEbmlUInt", "resample/ebml.py:GetUIntLength", "resample/ebml.py:GetEbmlUInt"]}
{"id": "C30", "title": "Lace sizes of an MKV block add up", "statement": "For every lacing type the frame lengths computed for a block sum to the payload length of the block.", "quantifier": "for every block content with valid lacing", "why_tests_cant": "Byte-level format with signed deltas.", "anchors": ["resample/ebml.py:EbmlReader"]}
{"id": "C31", "title": "ID3 sizes survive encoding", "statement": "Decoding the 4 byte sync-safe encoding of an ID3 tag size gives the size back and every byte is below 128.", "quantifier": "for every size below 2^28", "why_tests_cant": "2^28 values.", "anchors": ["resample/mp3.py:encode_id3_size", "resample/mp3.py:decode_id3_size"]}
{"id": "C32", "title": "SRS file record survives writing and reading", "statement": "The sample's name, size, CRC, flags and creating application read back from an SRS equal the ones written.", "quantifier": "for every name, application name, size below 2^64 and CRC", "why_tests_cant": "Lengths and numbers over their full range.", "anchors": ["resample/main.py:FileData.serialize", "resample/main.py:FileData.__init__"]}
{"id": "C33", "title": "SRS track record survives writing and reading", "statement": "A track's number, data length, match offset and signature read back from an SRS equal the ones written, in small and big-file mode.", "quantifier": "for every track number, length, offset and signature that the format can hold", "why_tests_cant": "Variable width fields controlled by flags.", "anchors": ["resample/main.py:TrackData.serialize", "resample/main.py:TrackData.__init__"]}
{"id": "C34", "title": "Stream samples are rebuilt exactly", "statement": "Creating an SRS from a stream sample (vob, m2ts, ...) and rebuilding it from a main file that contains the sample's bytes at the first place where its signature occurs yields the sample byte for byte; and the signature search finds the first occurrence or reports that there is none.", "quantifier": "for every sample, every main file and every position", "why_tests_cant": "Search is done in 64 KiB windows: all alignments of the signature relative to the windows matter.", "anchors": ["resample/main.py:stream_create_srs", "resample/main.py:stream_find_sample_streams", "resample/main.py:stream_extract_sample_streams", "resample/main.py:stream_rebuild_sample", "resample/main.py:stream_load_srs"]}
{"id": "C35", "title": "MP3 tracks are rebuilt exactly", "statement": "Creating an SRS from an MP3 file and rebuilding it from a file with the same audio data but different tags yields the original file byte for byte.", "quantifier": "for every MP3 file: any tags at either end, any audio data", "why_tests_cant": "All tag combinations and sizes.", "anchors": ["resample/main.py:mp3_create_srs", "resample/main.py:mp3_rebuild_sample", "resample/mp3.py:Mp3Reader"]}
{"id": "C36", "title": "FLAC tracks are rebuilt exactly", "statement": "Creating an SRS from a FLAC file and rebuilding it from a file with the same audio frames but different metadata yields the original file byte for byte.", "quantifier": "for every FLAC file: any metadata blocks, any frames", "why_tests_cant": "All metadata block lists and sizes.", "anchors": ["resample/main.py:flac_create_srs", "resample/main.py:flac_rebuild_sample", "resample/flac.py:FlacReader"]}
{"id": "C37", "title": "AVI samples are rebuilt exactly", "statement": "Creating an SRS from an AVI sample and rebuilding it from extracted tracks yields the sample byte for byte.", "quantifier": "for every AVI file: any nesting of lists, chunk sizes, odd padding, interleaving of streams", "why_tests_cant": "All interleavings and paddings.", "anchors": ["resample/main.py:avi_create_srs", "resample/main.py:avi_rebuild_sample", "resample/riff.py:RiffReader"]}
{"id": "C38", "title": "MKV samples are rebuilt exactly", "statement": "Creating an SRS from an MKV sample and rebuilding it from extracted tracks and attachments yields the sample byte for byte.", "quantifier": "for every EBML tree, lacing, track interleaving", "why_tests_cant": "All element trees.", "anchors": ["resample/main.py:mkv_create_srs", "resample/main.py:mkv_rebuild_sample", "resample/ebml.py:EbmlReader"]}
{"id": "C39", "title": "MP4 sample tables are expanded correctly", "statement": "The expanded sample-to-chunk table gives, for each chunk number, the samples per chunk of the table entry with the greatest first chunk not above it; reading a track through its chunk table returns the concatenation of its samples.", "quantifier": "for every compact table and every chunk number", "why_tests_cant": "All run lengths.", "anchors": ["resample/main.py:stsc", "resample/main.py:TrackStream.read", "resample/main.py:mp4_add_track_stream"]}
{"id": "C40", "title": "yEnc articles decode to the posted bytes", "statement": "Decoding the body lines of a yEnc article (escaped bytes, doubled leading dots, any line length) gives back the encoded bytes.", "quantifier": "for every byte string and every way of cutting it in lines", "why_tests_cant": "Replacement of escapes is done one escape at a time over the whole text; interactions need a proof.", "anchors": ["usenet/yenc.py:decode", "usenet/yenc.py:strip"]}
{"id": "C41", "title": "No progress message is lost", "statement": "Every message reported by the library while a command runs is displayed by the message thread.", "quantifier": "for every interleaving of the reporting thread and the display thread", "why_tests_cant": "Depends on the thread schedule.", "anchors": ["rescene/srr.py:MessageThread.run", "rescene/main.py:Observer"]}
{"id": "C42", "title": "File names with glob characters are stored literally", "statement": "Searching for a file to store matches exactly the file of that name, also if the name holds [, ], * or ?.", "quantifier": "for every file name and every directory listing", "why_tests_cant": "All names.", "anchors": ["rescene/main.py:escape_glob", "rescene/main.py:_search"]}
{"id": "C43", "title": "An accepted application name can always be written", "statement": "If the application name is accepted, then creating an SRR with it does not fail because of the name.", "quantifier": "for every text", "why_tests_cant": "Limits are in characters versus bytes.", "anchors": ["rescene/main.py:change_rescene_name_version", "rescene/rar.py:SrrHeaderBlock"]}
{"id": "C44", "title": "MP3 signature search finds the audio", "statement": "When the audio of the wanted track starts somewhere inside the audio block of the given file, the search reports the absolute offset of that start, so the rebuild reads the right bytes.", "quantifier": "for every tag size and every amount of prepended data", "why_tests_cant": "Offsets relative to the block or to the file coincide in simple tests.", "anchors": ["resample/main.py:mp3_match_signature", "resample/main.py:mp3_find_sample_streams", "resample/main.py:mp3_extract_sample_streams"]}
{"id": "C45", "title": "Reading any file terminates", "statement": "Reading an arbitrary (also corrupt or hostile) RAR, SRR or SRS file ends: each reader either reports the end, or fails with an error, after at most one step per byte of the file.", "quantifier": "for every byte string", "why_tests_cant": "Non-termination on hostile input cannot be tested exhaustively.", "anchors": ["rescene/rar.py:RarReader.read_all", "resample/stream.py:StreamReader.read", "resample/riff.py:RiffReader.read", "resample/flac.py:FlacReader.read"]}
{"id": "C46", "title": "Reading partitions the file", "statement": "The blocks returned when reading a RAR volume or an SRR cover the file without gap or overlap: positions are increasing and the header and data ranges of consecutive blocks are adjacent.", "quantifier": "for every file that is read without error", "why_tests_cant": "All files.", "anchors": ["rescene/rar.py:RarReader._read"]}
{"id": "C47", "title": "RAR executable choice is complete", "statement": "The list of RAR executables tried for a date holds every known executable exactly once, those closest in date first in the documented order.", "quantifier": "for every repository content and every date", "why_tests_cant": "All lists.", "anchors": ["rescene/main.py:RarRepository.get_rar_executables"]}
{"id": "C48", "title": "Thread counts tried are within limits and the search ends", "statement": "Successive thread counts tried for an executable are increasing, within the user's limits and set, and the enumeration ends.", "quantifier": "for every setting and executable", "why_tests_cant": "All settings.", "anchors": ["rescene/main.py:RarArguments.increase_thread_count"]}
{"id": "C49", "title": "Creating leaves a complete SRR or none", "statement": "A creation that reports success has written exactly the bytes of all its parts and touched no other file; one that ends with an error leaves the folder as it was.", "quantifier": "for every sequence of written parts, every error and every fate of the file operations", "why_tests_cant": "Failing operations at every point cannot be enumerated.", "anchors": ["rescene/main.py:create_srr", "rescene/main.py:create_srr_single_volume"]}
{"id": "C50", "title": "Every allowed thread count is tried", "statement": "When no thread count gives the archive, every count the executable takes that is within the user's limits and set has been tried.", "quantifier": "for every setting and executable", "why_tests_cant": "All sets, also those not in increasing order.", "anchors": ["rescene/main.py:RarArguments.increase_thread_count"]}
{"id": "C51", "title": "Wildcards in names of files to store", "statement": "A name of a file to store that contains wildcards adds all files that match it, as the option -s and _search document.", "quantifier": "for every pattern and directory tree", "why_tests_cant": "All patterns and trees.", "anchors": ["rescene/main.py:_search", "rescene/main.py:escape_glob", "rescene/srr.py:-s"]}
{"id": "C52", "title": "Archived files are listed with their real size and CRC", "statement": "info lists each file packed in the volumes of an SRR once, in the order of the first parts, with its name, whether it is compressed, the CRC in the header of its last part and its size: the one in its headers (some packers put it in the last volumes only), or, if no header of a stored file gives it, the sum of the sizes of its parts.", "quantifier": "for every SRR file that can be read, every number and distribution of parts", "why_tests_cant": "Sizes come from any of the headers of a file spread over any number of volumes, with two different markers for an unknown size.", "anchors": ["rescene/main.py:info"]}
{"id": "C53", "title": "The listing of stored files, hashes and recovery data is complete", "statement": "info lists each stored file name once, in order, with the size of the last stored file of that name; the application name of the last header; all OSO hashes in order; and the kind of the first recovery record with the total size of all of them.", "quantifier": "for every SRR file that can be read", "why_tests_cant": "Blocks can come in any order and number.", "anchors": ["rescene/main.py:info"]}
{"id": "C54", "title": "Volumes are listed with the checksums of the stored SFV files", "statement": "info gives each volume the checksum of the last entry in the stored SFV files whose file name is that of the volume without regard to folders and case, none if there is no such entry; and lists all other entries in order, and the comments and bad lines.", "quantifier": "for every SRR file that can be read and every stored SFV file", "why_tests_cant": "Arbitrary SFV contents, names and cases.", "anchors": ["rescene/main.py:info", "rescene/utility.py:parse_sfv_data"]}
{"id": "C55", "title": "Fingerprints are stored and read back unchanged", "statement": "Loading the SRS file created of an MP3 or FLAC file gives the duration and the AcoustID fingerprint that were known when it was created, and none if there was none.", "quantifier": "for every MP3 or FLAC file, every fingerprint and every duration that fits the block", "why_tests_cant": "Arbitrary files, fingerprints and tags; the fingerprint of an MP3 file comes right before the tags that are searched from the end of the SRS file.", "anchors": ["resample/main.py:read_fingerprint_data", "resample/main.py:TrackData.serialize_as_flac", "resample/main.py:TrackData.serialize_as_mp3", "resample/main.py:flac_load_srs", "resample/main.py:mp3_load_srs"]}
{"id": "C56", "title": "MP4 samples are rebuilt exactly", "statement": "From the SRS file of an MP4 sample and a main file whose tracks hold the data of the tracks of the sample, the sample is rebuilt byte for byte; with any main file, what is reported as rebuilt has the CRC of the sample and its metadata.", "quantifier": "for every MP4 sample, every main file and every set of stored offsets", "why_tests_cant": "Arbitrary layouts of chunks, tables and tracks; the main file has other offsets than the sample.", "anchors": ["resample/main.py:mp4_create_srs", "resample/main.py:mp4_load_srs", "resample/main.py:mp4_find_sample_streams", "resample/main.py:mp4_extract_sample_streams", "resample/main.py:mp4_rebuild_sample"]}
{"id": "C57", "title": "WMV samples are rebuilt exactly", "statement": "From the SRS file of a WMV sample and a main file whose packets hold the data of the streams of the sample, the sample is rebuilt byte for byte, its packet padding included; with any main file, what is reported as rebuilt has the CRC of the sample, its objects and the heads of its packets and payloads.", "quantifier": "for every WMV sample, every main file and every set of stored offsets", "why_tests_cant": "Arbitrary packet layouts, field widths, compressed payloads and padding; the main file splits the data differently than the sample.", "anchors": ["resample/asf.py:asf_data_get_packet", "resample/asf.py:AsfReader.read", "resample/main.py:wmv_create_srs", "resample/main.py:wmv_load_srs", "resample/main.py:wmv_find_sample_streams", "resample/main.py:wmv_extract_sample_streams", "resample/main.py:wmv_rebuild_sample"]}
{"id": "C58", "title": "Checking extracted files tells good from bad", "statement": "srr -q reports success exactly when every packed file of the SRR file is below the given folder with the recorded CRC (or, with the search for renamed files, when a file with the same extension, size and CRC is found), corruption or absence of the last bad file otherwise, and 10 when there are no packed files.", "quantifier": "for every SRR file, every folder and every state of the disk", "why_tests_cant": "Arbitrary combinations of present, changed, missing and renamed files, names and CRC values.", "anchors": ["rescene/srr.py:verify_extracted_files", "rescene/main.py:info", "rescene/utility.py:calculate_crc32"]}
{"id": "C59", "title": "Names get the capitals they have on disk", "statement": "Given a path, capitalized_fn gives the path of the file on disk whose name equals the last part but for case, or the path itself when there is no such file, and a name to store that keeps capitals found in either name.", "quantifier": "for every path and every list of folder entries", "why_tests_cant": "Folder listings in any order, paths with repeated slashes, and several names equal but for case.", "anchors": ["rescene/utility.py:capitalized_fn"]}
{"id": "C60", "title": "Missing files become zero bytes and nothing else changes", "statement": "With the option for empty files, volumes are written in which the data of missing files is zero bytes, all other blocks and data are those of the original volumes, recovery records fit what is written, and no other file on disk changes; the object that stands for a missing file reads like a file of zero bytes.", "quantifier": "for every SRR file, every set of missing files and every sequence of seeks and reads", "why_tests_cant": "Any subset of files in any volumes can be missing, with parts over several volumes and recovery records over the changed data.", "anchors": ["rescene/main.py:reconstruct", "rescene/rarstream.py:FakeFile"]}
{"id": "C61", "title": "Other places of a track are tried when the CRC of an MKV sample is wrong", "statement": "When the sample rebuilt from the first places of its tracks has another CRC, the other places of the tracks with a poor signature are tried in all combinations: those between the places of the other tracks, the last one before and the first one behind them. If the right places are among them the sample is rebuilt, and what is said to be rebuilt has the CRC of the sample.", "quantifier": "for every sample, every main file and every set of tracks with a poor signature", "why_tests_cant": "It takes tracks of over a megabyte whose first bytes occur several times, in several tracks at once; the state of the temporary files after each attempt decides what the next attempt writes.", "anchors": ["resample/srs.py:find_best_educated_guesses", "resample/srs.py:check_tracks", "resample/main.py:_extra_offsets_x265_bug"]}
{"id": "C62", "title": "A movie inside RAR volumes is treated like the movie itself", "statement": "When the movie given to rebuild a sample is a RAR volume, the first file with the name of a media file in it is taken, its type is found from its first bytes, and the result is the same as with the unpacked movie.", "quantifier": "for every set of volumes, every movie inside it and every SRS file", "why_tests_cant": "Any read can cross the end of a volume, and it depends on the sample which parts of the movie are read in which order.", "anchors": ["resample/main.py:file_type_info", "resample/riff.py:RiffReader", "resample/main.py:stream_find_sample_streams", "rescene/rarstream.py:RarStream"]}
{"id": "C63", "title": "The ordered dictionary keeps keys in the order they were first set", "statement": "Every sequence of calls on the ordered dictionary for old Python versions (set, get, delete, pop, popitem from both ends, clear, setdefault, update, copy, fromkeys, len, keys, reversed, items, values) gives the replies of a list of pairs in which a key that is set again keeps its place and a deleted key loses it; a failed call changes nothing; two such dictionaries are equal exactly when they hold the same pairs in the same order.", "quantifier": "for every type of keys and values and every sequence of calls", "why_tests_cant": "The keys are in a doubly linked list that every call rewires; a wrong link only shows after some sequences of insertions and deletions, in one of the directions.", "anchors": ["rescene/ordereddict.py:OrderedDict"]}
{"id": "C64", "title": "A posted file can be read like a file on disk", "statement": "Seek, tell, read and file_size on a file that is posted in segments give what they give on the file itself: positions outside the file raise IndexError, reads return the bytes at the position wherever segments begin, whatever segments or first lines of segments have been grabbed before.", "quantifier": "for every file, every segment size, every sequence of calls and every server that has the segments", "why_tests_cant": "Which segments are held, and how much of each, depends on all earlier calls; a read can begin and end at any place of any segment.", "anchors": ["usenet/srr_usenet.py:NNTPFile.read", "usenet/srr_usenet.py:NNTPFile.seek", "usenet/srr_usenet.py:NNTPFile._which_segment", "usenet/srr_usenet.py:NNTPFile.grab_segment"]}
{"id": "C65", "title": "A failed download is tried again with other servers", "statement": "When reading a posted volume fails with an environment, index or temporary NNTP error the file is downloaded anew, from the servers in turn, at most read_retries times; a new download is not disturbed by what an earlier one left; the first one that works, or another error, ends it.", "quantifier": "for every reader, every list of servers and every number of retries", "why_tests_cant": "Failures of servers at every point of a download and what they leave in the object cannot be enumerated.", "anchors": ["rescene/main.py:_rarreader_usenet", "usenet/srr_usenet.py:NNTPFile.init_data"]}
{"id": "C66", "title": "Commands never leave half a file under the name of the result", "statement": "Whatever file operation fails and wherever the program is stopped, after srr or srs created or rebuilt a file its name has what it had before, nothing, or a complete new file; other files are untouched; an existing file is only replaced with leave and is not lost by a failure; a rebuild that ends well has the CRC of the SRS file; temporary files are gone.", "quantifier": "for every file system, every list of failing operations and stops, every answer and option, and every list of rebuilt files", "why_tests_cant": "Tests do not make every single file operation fail or stop the program between two of them.", "anchors": ["rescene/srr.py:create_srr", "rescene/srr.py:can_overwrite", "resample/srs.py:main", "resample/srs.py:can_overwrite"]}
{"id": "C67", "title": "Every topmost release in a directory is found once", "statement": "get_release_directories gives every directory that is a release and is not in another release, once and in alphabetical order, and nothing else. A directory with an SFV file, with an NFO file, or with disks in directories that have SFV files is a release unless its name has a space or is that of a part of a release; a pack of releases with an NFO file is not.", "quantifier": "for every tree of directories and every path", "why_tests_cant": "The trees of names and the order in which they are walked are not bounded, and the loop remembers only the release before.", "anchors": ["bin/pyrescene.py:get_release_directories", "bin/pyrescene.py:is_release", "rescene/utility.py:DISK_FOLDERS", "rescene/utility.py:RELEASE_FOLDERS"]}
{"id": "C68", "title": "The size of an image is that of its header", "statement": "get_image_size gives the width and height in the header of a PNG or GIF file and in the frame of a JPEG file, whatever blocks and padding come before the frame; the search for the frame ends for every file; fixed_resolution_cover holds exactly for pictures of 630 by 1200.", "quantifier": "for every list of blocks, every size, every header and every file", "why_tests_cant": "The blocks before the frame are arbitrary in number, size and content, and their data can look like frames.", "anchors": ["bin/pyrescene.py:get_image_size", "bin/pyrescene.py:test_jpeg", "bin/pyrescene.py:fixed_resolution_cover"]}
{"id": "C69", "title": "The images of a release are stored, those of sites and players are not", "statement": "get_proof_files gives, each once, the images whose path has proof, sample, covers, screenshots or compare in it, those that begin with the numbers of music, large images (but no posters) named like the NFO, SFV, M3U or RAR files of the release, and archives of proofs with images; images of players and with spaces are never given outside the directories for proofs; with the option for more images all others are.", "quantifier": "for every tree of files, all sizes and all contents of archives", "why_tests_cant": "Trees and names are not bounded, and the comparison of names has many branches that depend on case, numbers and groups.", "anchors": ["bin/pyrescene.py:get_proof_files", "bin/pyrescene.py:filter_proof_image_files", "bin/pyrescene.py:store_rls_root", "bin/pyrescene.py:similar_to_good_name", "bin/pyrescene.py:get_files"]}
{"id": "C70", "title": "The SFV files of the main archives are told from the others", "statement": "remove_unwanted_sfvs gives, in order, the SFV files in the directory of a release and of its disks and leaves out those of subtitles, covers, codecs and rarred proofs; it gives some file when one of the list has music or more than one file; get_unwanted_sfvs gives the others; get_start_rar_files gives the first volume of each set with its directory.", "quantifier": "for every list of SFV files, every name of a release and all contents of the files", "why_tests_cant": "Names are not bounded and the tests on them overlap; a pattern meant for one directory matches across two.", "anchors": ["bin/pyrescene.py:remove_unwanted_sfvs", "bin/pyrescene.py:get_unwanted_sfvs", "bin/pyrescene.py:get_start_rar_files"]}
{"id": "C71", "title": "Fixing tags uses each .srs file once with the track that belongs to it", "statement": "retag extracts the stored files that are not .srs files without replacing any, and for each .srs file of music rebuilds the track found in the input folder, or else in the folder the .srs file has in the release, whatever the case of the letters; .srs files of other samples are skipped; every .srs file is counted once and removed; the exit status tells success.", "quantifier": "for every SRR file, every input directory, all contents of .srs files and every behaviour of rebuilding", "why_tests_cant": "The clean-up after a track that is not of music runs only for SRR files that mix samples, and names that coincide in different folders or cases are not bounded.", "anchors": ["bin/retag.py:fix_tracks", "bin/retag.py:fix_tagging", "bin/retag.py:join_fix_case", "bin/retag.py:main"]}
{"id": "C72", "title": "Samples and music files get .srs files with different names", "statement": "get_sample_files gives, each once, the videos of a release that are samples by the path inside the release, by an SFV file of their own or by an entry of an SFV file; get_music_files gives each music file once; the .srs file of each has the name of the file with another extension, and no two have the same name.", "quantifier": "for every tree of files and all contents of SFV files", "why_tests_cant": "The names, their order and the place of the release are not bounded; collisions depend on three or more names together.", "anchors": ["bin/pyrescene.py:get_files_list", "bin/pyrescene.py:get_sample_files", "bin/pyrescene.py:get_music_files", "bin/pyrescene.py:generate_srr"]}
{"id": "C73", "title": "Stored files are put in the order of the scene tools", "statement": "In the list of files to store, SFV files of main archives come last; for music, NFO files come first and the others follow by name; for other releases each archive or .srr file with an SFV file of its name is directly above it, the other files keep their order and none is lost.", "quantifier": "for all lists of files and of SFV files", "why_tests_cant": "The list and the names are not bounded and the moves happen in a loop that changes the list it searches.", "anchors": ["bin/pyrescene.py:generate_srr", "bin/pyrescene.py:key_sort_music_files"]}
{"id": "C74", "title": "Only .srs files that fail the SFV check and excluded files are left out", "statement": "For music, the .srs files are stored that can be read and whose CRC is that of the track in the SFV file of the release, or whose track is in no SFV file; files named by an option to leave them out are left out, all others are stored.", "quantifier": "for all lists of files, all entries of SFV files and all options", "why_tests_cant": "The failures need equal track names in two SFV files, or a file named by two options at once.", "anchors": ["bin/pyrescene.py:generate_srr"]}
{"id": "C75", "title": "srr_sort lists exactly the SRR files the options ask for", "statement": "An SRR file is listed if and only if, for one of the options given, its blocks have what the option describes: compressed files, no RAR data, images, images other than proofs, repacks, two or more NFO files, duplicate stored files, RAR names with capitals, no stored files, no SFV or NFO file, TXT files.", "quantifier": "for all SRR files and all combinations of options", "why_tests_cant": "The number, the order and the names of the blocks are not bounded; the failures depend on the order (a proof before another image) or on the spelling of an extension.", "anchors": ["bin/srr_sort.py:check", "bin/srr_sort.py:check_image", "bin/srr_sort.py:check_nfos", "bin/srr_sort.py:check_duplicates"]}
{"id": "C76", "title": "Two SFV files are the same if and only if they have the same entries", "statement": "same_sfv is true for two SFV files if and only if their entries are the same, not regarding the order of the lines, comments, and the case of names and CRCs.", "quantifier": "for all contents of the two files", "why_tests_cant": "The entries and their order are not bounded; the failures need names whose order changes with case, or three names for which the comparison is not transitive.", "anchors": ["rescene/utility.py:same_sfv", "rescene/utility.py:SfvEntry.__lt__", "rescene/utility.py:SfvEntry.__eq__"]}
{"id": "C77", "title": "Broken NZB files are repaired and good ones are not changed", "statement": "When an NZB file cannot be parsed, every ampersand that begins no XML reference is escaped, zero bytes are removed, a missing closing tag is added and a repeated one removed, everything else is kept, and for an empty file an empty list is returned.", "quantifier": "for all contents of the file and all parsers", "why_tests_cant": "The text around an ampersand is not bounded; the failures depend on the newline of the last line, on capitals in a reference, and on a branch that no input reaches.", "anchors": ["usenet/nzb_utils.py:read_nzb"]}
{"id": "C78", "title": "The SRR files for vobsubs cover all archives and list their languages", "statement": "For the SFV file of vobsubs an SRR file is made for each set that can be extracted, in it are the SRR files for the sets found in that set at every depth and no others, and the first SRR file gets a languages.diz with the language lines of each .idx file in these sets, once, and of no other ones.", "quantifier": "for all trees of archives in archives, SFV files and contents of .idx files", "why_tests_cant": "Archives are nested to any depth and a folder can have any names; the failures depend on two sets with the same base name and on the SFV files handled before.", "anchors": ["bin/pyrescene.py:create_srr_for_subs"]}
{"id": "C79", "title": "Splitting an NZB file by release loses no file", "statement": "When an NZB file is split, each file with a recognisable release is in the NZB file of its release, once and in order, what was in the output folder before is kept, the names contain no forbidden characters, and without any other information the longest word of the subject is the name.", "quantifier": "for all lists of files, subjects and output folders", "why_tests_cant": "The lists are unbounded; the losses depend on the order of the releases and on what an earlier run has left.", "anchors": ["usenet/nzb_split.py:main", "usenet/nzb_split.py:longest_name"]}
{"id": "C80", "title": "Every file to store is copied to its own place", "statement": "pyReScene Auto copies each file to store from the release to the same place in its working directory, with the same contents and the name in capitals if there are any; no copy overwrites another, no other file is changed, and the copy is stored under the path of the file in the release.", "quantifier": "for all releases, lists of files and working directories", "why_tests_cant": "Depends on the other names in each folder, which are unbounded; the loss needs a file system that tells names in different case apart.", "anchors": ["bin/pyrescene.py:copy_to_working_dir", "bin/pyrescene.py:work_dir_file", "rescene/utility.py:capitalized_fn"]}
{"id": "C81", "title": "The best version of each posted file is used, once, and in order", "statement": "When an SRR file is made from an NZB file, the biggest version of each file is used, each SFV name is used once with most entries, SFV files of extras, proofs, samples and subpacks come last, NFO files are stored first, no file is stored twice, the NZB file is refused only for a RAR file whose first segment is missing or for a repack, and no two files are taken for one.", "quantifier": "for all NZB files", "why_tests_cant": "Depends on the order and the names of any number of posted files; the wrong order needs two neighbours in the sorted list.", "anchors": ["usenet/srr_usenet.py:create_srr", "usenet/srr_usenet.py:NNTPFile.__eq__", "usenet/nzb_utils.py:parse_name"]}
{"id": "C82", "title": "The SRR file is made of all volumes of the set, in order and once", "statement": "When an SRR file is made, every RAR volume of an SFV file is taken once and in the order of the set; from a RAR file the whole set is taken, which is only possible from its first volume; volumes are found whatever the case of their names, a missing volume or a file that cannot be read is reported, and the search ends.", "quantifier": "for all folders, sets of volumes and SFV files", "why_tests_cant": "Sets of any length in three styles of names, with gaps, duplicates and names in capitals.", "anchors": ["rescene/main.py:_handle_sfv", "rescene/main.py:_handle_rar", "rescene/main.py:_rarreader_usenet", "rescene/main.py:create_srr"]}
{"id": "C83", "title": "The SRR file of posted files is that of the same files on disk", "statement": "The SRR file that is made from the files of an NZB file has all volumes of the SFV files once and in order whatever the capitals of their names, the SFV files and all files to store with their data, and can be read; it is not made when a volume or the end of a volume is missing; without SFV file it is made from the first RAR files.", "quantifier": "for all posted files, SFV files and files to store", "why_tests_cant": "Depends on names, capitals, orders and failures of any number of files; the second attempt works on a dictionary and a list that were changed by the first.", "anchors": ["rescene/main.py:create_srr_fh", "rescene/main.py:_store_fh", "usenet/srr_usenet.py:create_srr"]}
{"id": "C84", "title": "RAR executables taken out of installers are found for reconstruction", "statement": "For each RAR installer in the folder whose name tells its version an executable is put in the output folder under a name with its date and version that the reconstruction reads as such, and no other; none replaces another.", "quantifier": "for all lists of installers with their names and contents", "why_tests_cant": "The names are taken apart by two expressions with optional parts that backtrack; clashes need pairs of installers.", "anchors": ["bin/preprardir.py:versiontag", "bin/preprardir.py:get_rar_date_name", "bin/preprardir.py:extract_rarbin"]}
{"id": "C85", "title": "NZB files are put in the folder of their outcome and none is lost", "statement": "After the attempts to make SRR files each NZB file of the folder is in the folder for its outcome, or where it was when the network failed, with no other file changed or lost; a dry run moves nothing; a volume is taken as complete if any of the servers has its last segment.", "quantifier": "for all folders, outcomes and answers of servers", "why_tests_cant": "Needs news servers and failures of all kinds; the order of the exception handlers decides, and clashes with files of earlier runs.", "anchors": ["usenet/srr_usenet.py:create_srr_nzbmove", "usenet/srr_usenet.py:process_dir", "usenet/srr_usenet.py:stat_last_segment"]}
{"id": "C86", "title": "The search for a flipped bit finds the original file", "statement": "Given the CRC-32 of the original file, a range within the file and any part size, the search finishes without error; if the file differs from the original in one bit, two neighbouring bits of one byte, or one byte of the range, the file written is the original; if nothing is written no such change has the CRC.", "quantifier": "for all files, CRC values, ranges, part sizes and modes", "why_tests_cant": "The partition arithmetic has many boundary cases and whether another change has the same CRC depends on the algebra of the CRC polynomial for files up to hundreds of megabytes.", "anchors": ["scripts/bitflip.py:precalculate", "scripts/bitflip.py:main", "rescene/crc32combine.py:crc32_combine"]}
{"id": "C87", "title": "The right blocks are used to rebuild compressed archives", "statement": "For a file block of an SRR file, the blocks considered are exactly the file blocks of its own archive over all volumes; the first file of a solid archive starts a solid archive and later files reuse it; other files are compressed alone with the file behind them; packed sizes, the volume size and the most recent date are those of the stored blocks.", "quantifier": "for all lists of SRR blocks, archives among them and file blocks", "why_tests_cant": "Real compressed sets need the original RAR executables and files; the combinations of solid flags, volumes, neighbouring archives and split files are unbounded.", "anchors": ["rescene/main.py:compressed_rar_file_factory", "rescene/main.py:get_archived_file_blocks", "rescene/main.py:get_set", "rescene/main.py:get_full_packed_size", "rescene/main.py:calculate_size_volume", "rescene/main.py:get_most_recent_date"]}
{"id": "C88", "title": "The files of an archive are found on the disk", "statement": "For each archived file the file used is the one named by the last hint for it, or else by its own name below the input folder, and it has the recorded size unless that is unknown; if it is missing and renamed files are searched it is the first file below the folder with the same extension and size; otherwise a FileNotFound or InvalidFileSize error is raised.", "quantifier": "for all file systems, hints, archived names and sizes", "why_tests_cant": "The result depends on the whole directory tree, duplicate hints and sizes, and special characters in names; tests cover a few fixed trees.", "anchors": ["rescene/main.py:_locate_file", "rescene/main.py:_auto_locate_renamed", "rescene/srr.py:manage_srr"]}
{"id": "C89", "title": "The search of the RAR executable tries all commands in order", "statement": "For a compressed block every available executable is tried with every allowed thread count, first with the file alone and then with the previous file in front; the first command that reproduces the data is used, with the options of the block and of the RAR version; the search fails only if none of these commands works and never ends with an unexpected error.", "quantifier": "for all executables, thread settings, blocks and behaviours of the executables", "why_tests_cant": "The RAR executables cannot be run in the test suite; the mutable argument object carries state from one attempt to the next over arbitrarily many executables.", "anchors": ["rescene/main.py:CompressedRarFile.search_matching_rar_executable", "rescene/main.py:RarArguments.arglist", "rescene/main.py:RarArguments.increase_thread_count"]}
{"id": "C90", "title": "The main RAR file is stored only for fixes, and once", "statement": "The main RAR file of a release is stored in the SRR file exactly when the release name says that it is a fix of an SFV, PPF, sync, proof, dir, nfo, interleaving or track order (or has one of the plain fix forms), the release is not on the list of exceptions, there is one SFV file with one entry, and the file has not been stored before; fixes of archives, subtitles, audio and samples are not stored.", "quantifier": "for all release names without line breaks, folders, SFV contents and files copied before", "why_tests_cant": "The names are unbounded and the four regular expressions overlap; tests check a few names and no combination with files copied before.", "anchors": ["bin/pyrescene.py:is_storable_fix", "bin/pyrescene.py:rar_file_blacklist", "bin/pyrescene.py:generate_srr"]}
{"id": "C91", "title": "The SRR file of a rared sample rebuilds the sample", "statement": "For a sample with the name of a .vob file that is in fact a RAR volume, an SRR file is made beside its SRS file from which the sample can be rebuilt byte for byte; an existing file is never overwritten, nothing but the new file changes, a broken RAR file leaves no file behind, and capitals in the extension do not matter.", "quantifier": "for all RAR volumes, names, files on disk and files listed before", "why_tests_cant": "No test covers this path; contents, block structure and existing names are unbounded.", "anchors": ["rescene/main.py:create_srr_single_volume", "rescene/utility.py:create_temp_file_name", "bin/pyrescene.py:generate_srr"]}
{"id": "C92", "title": "The exit status tells whether every release has its SRR file", "statement": "pyrescene goes through all releases of all given folders in order, lists just those for which no SRR file was made, exits with 0 just if there is none, and removes its working directory; a failing release never keeps the next ones from being done. SRR files and folders are overwritten or made just with consent.", "quantifier": "for all lists of folders, releases, outcomes of single releases and answers of the user", "why_tests_cant": "main() has no tests; the number of releases and combinations of outcomes are unbounded.", "anchors": ["bin/pyrescene.py:main", "bin/pyrescene.py:can_create", "bin/pyrescene.py:can_overwrite"]}
{"id": "C93", "title": "Releases listed as without NFO or sample are without them", "statement": "With the options that list releases, a release is printed as missing its NFO file just if no name in its folder ends in .nfo, and as missing its sample just if no video file is in a folder for samples; the listing goes through all releases.", "quantifier": "for all releases, folder contents and options", "why_tests_cant": "No test covers the listing; folder contents and names are unbounded.", "anchors": ["bin/pyrescene.py:main", "rescene/utility.py:FileType"]}
{"id": "C94", "title": "The command srr does what its options ask for and says so in its exit status", "statement": "The first input file decides whether an SRR file is used or made, whatever the case of its extension; of several options the one first in rank is followed; the exit status is 0 just if the input can be worked on and all that was asked for has been done; the SRR file that is made is named after the input; extracted files are shown with the names they have in the SRR file.", "quantifier": "for all lists of input files, combinations of options, output and input folders and outcomes of the functions that are called", "why_tests_cant": "main() and manage_srr have no tests; paths and combinations of options and outcomes are many or unbounded.", "anchors": ["rescene/srr.py:main", "rescene/srr.py:manage_srr", "rescene/srr.py:create_srr"]}
{"id": "C95", "title": "Fixed MKV files keep everything but the title in place", "statement": "The copy that mkvfix_usenet makes of an MKV file has the same size as the file; it differs just in the seek head, the void element and the Info element, which takes no title any more and is at the place named in the seek head; the entries of the seek head are kept and ordered by position.", "quantifier": "for all files and all data read from their seek head, Info and void elements", "why_tests_cant": "The script has no tests; sizes of titles, entries and padding are unbounded and the encoding of lengths depends on them.", "anchors": ["scripts/mkvfix_usenet.py:fix_usenet", "scripts/mkvfix_usenet.py:check_fixable"]}
{"id": "C96", "title": "Fingerprinting strips just what is before the music", "statement": "If fpcalc gives no fingerprint for a music file, it is tried on its music data without tags and then on the data from the last MP3 frame before the first Xing or LAME string; the first result counts; no temporary file is left.", "quantifier": "for all files, all outputs of fpcalc and all music data", "why_tests_cant": "fpcalc.py has no tests; the place of the strings relative to the 64 KiB batches and the bytes before them are unbounded.", "anchors": ["resample/fpcalc.py:fingerprint"]}
{"id": "C97", "title": "NZB files of samples hold just the samples", "statement": "For each NZB file given, or in a folder given, nzb_sample_extract writes an NZB file to the output folder with exactly the files whose names have an extension asked for, also before the ending of PAR2 files, and that are not larger than the size given, in their order; if there are none, no file is written; nothing else is changed.", "quantifier": "for all options, arguments and files on disk", "why_tests_cant": "There is one test with one name for the regular expression; the writing of the files and clashes of their names are not tested.", "anchors": ["usenet/nzb_sample_extract.py:is_sample", "usenet/nzb_sample_extract.py:extract_sample", "usenet/nzb_sample_extract.py:main"]}
{"id": "C98", "title": "Merging NZB files loses no file", "statement": "For each release folder with two or more NZB files, nzb_merge puts all their files into the NZB file with the shortest name, those of NZB files with shorter names first, and removes the other NZB files; if one cannot be read nothing changes; everything else in the folder stays.", "quantifier": "for all folders, names and contents of NZB files", "why_tests_cant": "The script has no tests; number, order and lengths of the names are unbounded, and the result depends on the current folder and the version of Python.", "anchors": ["usenet/nzb_merge.py:merge_nzbs", "usenet/nzb_merge.py:main"]}
{"id": "C99", "title": "Renaming NZB files loses none of them", "statement": "nzb_rename moves each NZB file of a folder that can be read to processed/music or processed/other under the name of its release, found in the subjects of its files; music is what has a music file; no NZB file is lost, other files and NZB files that cannot be read stay.", "quantifier": "for all folders, names and files in the NZB files", "why_tests_cant": "The script has no tests; clashes of names depend on all NZB files together and on what is in the folders already.", "anchors": ["usenet/nzb_rename.py:main", "usenet/nzb_rename.py:process_nzb"]}
{"id": "C100", "title": "Moving the releases of known groups loses none and touches nothing else", "statement": "move_scene moves each file or folder of the given folders whose name has the group of a line of the release list to the folder scene or the one given; no release is lost, everything else stays, and a missing list is only reported.", "quantifier": "for all release lists, folders and names", "why_tests_cant": "The script has no tests; clashes of names depend on all folders together and on what is at the destination already.", "anchors": ["scripts/move_scene.py:main", "scripts/move_scene.py:get_groupname", "scripts/move_scene.py:get_groups"]}
{"id": "C101", "title": "Groups and series are counted exactly", "statement": "count_groups and group_series print each group or series of a list of releases exactly once, with the number of releases of it in the list, in the order of these numbers.", "quantifier": "for all lists of releases", "why_tests_cant": "The scripts have no tests; a wrong count shows only for lists in which the releases of a series are not next to each other, whatever their number.", "anchors": ["scripts/count_groups.py:start_count", "scripts/group_series.py:main"]}
{"id": "C102", "title": "NZB files of a certain age are selected exactly", "statement": "nzb_age shows, or moves to the output folder, exactly the NZB files of a folder with an age in days between the two limits, reports those without date as bad, and loses or changes no other file.", "quantifier": "for all folders, contents of NZB files, limits and times", "why_tests_cant": "The script has no tests and depends on the clock; limits, dates and names in the output folder have no bound.", "anchors": ["usenet/nzb_age.py:main"]}
{"id": "C103", "title": "Comparing two lists prints exactly the common or the new releases", "statement": "list_compare prints with -d exactly the releases that are in both lists and with -u exactly those of the new list that are not in the main list, each once, whatever the line ends of the two files.", "quantifier": "for all pairs of text files", "why_tests_cant": "The script has no tests; lists have no bound and their line ends can be mixed.", "anchors": ["scripts/list_compare.py:read_txt", "scripts/list_compare.py:print_releases", "scripts/list_compare.py:main"]}
