# Formal model of pyrescene in Rocq: design

Subject: srrDB/pyrescene (python), read as text in `/repo`, never run.
Prover: Coq 8.16.1, standard library only (no other library's axioms).

## Trusted base

* The Coq kernel (and `vm_compute`, which is part of it).
* `Print Assumptions` is run below every property theorem. It prints
  "Closed under the global context" for each one: no axiom is used, neither one
  of the standard library nor one of our own.
* The correspondence between the Python text and the Gallina definitions. This
  is by reading: each definition has a comment with file and lines, and the
  simplifications made.

## Modelling conventions

* `bytes` is `list Byte.byte`; Python `str` is a list of code points (`N`).
  UTF-8 and windows-1252 are concrete functions, not oracles.
* Python integers are `N`/`Z`; `struct` packing is written out, with
  `struct.error` as a value when a number does not fit or a buffer is short.
* Exceptions are values of the type `exn` in `result`.
* Loops that Python bounds by the file contents use fuel; running out of fuel is
  the separate value `OutOfFuel`, and theorems prove that it does not occur.
* A file system is a finite map from paths to contents. Crash points are modelled
  as prefixes of the list of file operations performed.

## Files (rocq/theories)

* Model files contain definitions only; proof files `*Facts.v`/`*Thms.v` contain
  the lemmas; `*Spec.v` the specifications, written without using the model;
  `Props_*.v` hold the theorems of the properties, each closed by `exact`,
  followed by `Print Assumptions` and a concrete example.

### Mutations (seeded/LOG.jsonl)

`theorems_failed` lists the theorems that could not be built after an edit of the
model: the first proof that fails and all that depend on it. A proof can also
fail for its form, so this alone does not show that the statement of each of
them is false for the edited model. The list follows the names used in proofs
only, so it can be empty when a theorem is reached through a definition or a
qualified name (most edits of the `*Prog.v` files); `failed_at` has the proof
that failed. Theorems are tightened or added for edits that survive.

### What is modelled

| File | Code in /repo | Left out |
|---|---|---|
| `Base.v` | struct, UTF-8, windows-1252, latin-1, slices, hex | |
| `Rar.v` | rescene/rar.py: all block classes, `RarReader` (RAR, SRR mode), `UnicodeFilename`, DOS time | `SIGNATURE` search in SFX, tracing output, `explain` texts |
| `Path.v` | utility.py/main.py path helpers: joinpath, os_file_name, `_opath`, posixpath functions | Windows path semantics |
| `Crc.v`, `Combine.v`, `Oso.v` | zlib.crc32, calculate_crc32, crc32combine.py, osohash.py | the ctypes/numpy details |
| `Srr.v` | rescene/main.py: create_srr, add/remove/rename/merge, extract_files, reconstruct, `_repack`, `_write_recovery_record` | compressed RAR reconstruction (needs rar executables), OpenSubtitles lookup on the web |
| `Disk.v` | the same editing functions as traces of file operations, for crash points | directory fsync, concurrent writers |
| `VolName.v` | utility.py: next_archive, is_rar, first_rars | other regular expression features |
| `Sfv.v` | utility.py: SfvEntry, parse_sfv_data, filter_sfv_duplicates | sorted() is insertion sort; other file encodings |
| `Stream.v` | rarstream.py: RarStream; osohash.py: osohash_from | close(), open file handles (FakeFile is in `Fake.v`) |
| `Flags.v` | rar.py/main.py: dictionary and compression method switches | |
| `Ebml.v` | resample/ebml.py: GetUIntLength, GetEbmlUInt, GetEbmlUIntStream, MakeEbmlUInt, GetBlockFrameLengths | |
| `SrsRec.v` | resample/main.py FileData, TrackData (buffer side); mp3.py ID3 sizes | FileData for a file on disk |
| `Info.v` | rescene/main.py info, content_hash | the output of print_details; str.lower and str.upper are parameters of the theorems; the digest is a parameter |
| `Store.v` | `_store`, `_store_fh`, `_search` naming | globbing proper |
| `Yenc.v` | usenet/yenc.py: decode, yCheck, ySplit, strip | the C module _yenc; Python's int() is a parameter of the theorems |
| `Msg.v` | rescene/srr.py: MessageThread; rescene/main.py: _fire, Observer, MsgCode | the sleeping times; other callbacks |
| `Glob.v` | rescene/main.py: escape_glob, _search; Python's glob and fnmatch | recursive patterns, Windows; the directory tree is a parameter |
| `Rarexe.v` | rescene/main.py: RarRepository (loading, get_rar_executables), RarExecutable, increase_thread_count, the loop over thread counts, change_rescene_name_version | running the executables |
| `Srs.v` | resample/srs.py 427-600 rebuilding, resample/main.py TrackData while rebuilding, serialize_as_mp3/stream | cut_data, temporary files and messages are left out |
| `StrmSrs.v` | resample/stream.py StreamReader, resample/main.py stream_* functions, srs.py 331-366 creation with and without -c | m2ts special reader, files on disk |
| `Mp3.v` | resample/mp3.py Mp3Reader and last_id3v2_before_sync; resample/main.py mp3_* functions (profile, create, load, find, match_signature, extract, rebuild) and the fingerprint blocks | the fingerprint itself (parameter, made by fpcalc), int() of the size of a Lyrics3v2 tag (parameter), blocks of negative size in profile and search (NotModelled), main files inside RAR volumes (in Mp3Prog.v) |
| `Flac.v` | resample/flac.py FlacReader; resample/main.py flac_* functions (profile, create, load, find, extract, rebuild) and the fingerprint block | the fingerprint itself (parameter, made by fpcalc), blocks of negative size in profile and search (NotModelled), main files inside RAR volumes (in FlacProg.v) |
| `Mp4.v` | resample/mov.py MovReader; resample/main.py stsc, TrackStream, TrackChunk, order_chunks, mp4_* functions (profile, create, load, find, extract, rebuild), profile_mp4_srs | main files inside RAR volumes (in Mp4Prog.v), offsets from 2^63 on, progress output |
| `Avi.v` | resample/riff.py RiffReader; resample/main.py avi_* functions (profile, create, load, find, extract, rebuild), serialize_as_riff | main files inside RAR volumes (in AviProg.v), offsets from 2^63 on, progress output |
| `Mkv.v` | resample/ebml.py EbmlReader; resample/main.py mkv_* functions (profile, create, load, find, extract, rebuild), serialize_as_ebml, enough_signature_data; the order of them in resample/srs.py | main files inside RAR volumes (in MkvProg.v), read of a length below -1 (ValueError in Python 3 files), the retries of srs.py:518-577 after a wrong CRC (in MkvRetry.v), progress output, codec names |
| `Wmv.v` | resample/asf.py AsfReader, asf_data_get_packet and what it calls; resample/main.py wmv_* functions (profile, create, load, find, extract, rebuild), serialize_as_asf; the order of them in resample/srs.py | presentation times and key frames, main files inside RAR volumes (in WmvProg.v), progress output; the loop over packets that are left out at extraction is taken in one step |
| `Verify.v` | rescene/srr.py verify_extracted_files; os.path.splitext and fnmatch on POSIX | the disk is a function from paths to files or folders, os.walk a list of folders with file names; messages |
| `Capital.v` | rescene/utility.py capitalized_fn | str.lower, os.listdir and os.path.isfile are parameters; messages |
| `Fake.v` | rescene/rarstream.py FakeFile seek, read, tell | length, readable, seekable; other values of origin |
| `MkvRetry.v` | resample/srs.py find_best_educated_guesses, check_tracks and the calls around them; resample/main.py _extra_offsets_x265_bug, reset_file_positions | temporary files as bytes before and behind their position; messages; deletion of temporary files |
| `Prog.v` | use of a main file by seek, tell and read, and opening it as a file or as a RarStream | the error of a seek before the start (IndexError for a RarStream, OSError for a file) is the same |
| `AviProg.v` | the functions of `Avi.v` that read the main file, as programs over seek, tell and read | same as `Avi.v` |
| `StrmProg.v` | the functions of `StrmSrs.v` that read the main file, as programs over seek, tell and read | same as `StrmSrs.v` |
| `MovieType.v` | resample/main.py file_type_info; rescene/rar.py list_files; which class rebuilds (resample/srs.py) | messages; SRS files and movies of different types |
| `MkvProg.v` | the functions of `Mkv.v` and `MkvRetry.v` that read the main file, as programs over seek, tell and read | same as `Mkv.v` |
| `WmvProg.v` | the functions of `Wmv.v` that read the main file, as programs over seek, tell and read | same as `Wmv.v` |
| `Mp4Prog.v` | the functions of `Mp4.v` that read the main file, as programs over seek, tell and read; FileData and open_main | same as `Mp4.v` |
| `FlacProg.v` | the functions of `Flac.v` that read the main file, as programs over seek, tell and read | same as `Flac.v` |
| `Mp3Prog.v` | the functions of `Mp3.v` that read the main file, as programs over seek, tell and read | same as `Mp3.v` |
| `ODict.v` | `rescene/ordereddict.py`: `__init__`, clear, `__setitem__`, `__delitem__`, `__iter__`, `__reversed__`, popitem, keys, setdefault, update, pop, values, items, copy, fromkeys, `__eq__` | the linked nodes are in a heap with fresh addresses; hashing, changes during iteration, `__reduce__` and `__repr__` are left out; comparing with a plain dict is left out |
| `Nntp.v` | usenet/srr_usenet.py: NNTPFile `__init__`, grab_segment, file_size, seek, tell, _which_segment, _read_first_segment, _first_inactive_grab, read with all of its repairs for RAR volumes | the decoded articles, the Lines header and int(n - n * 0.07) are parameters; choice of the server, groups, init_data and printing are left out |
| `Retry.v` | usenet/srr_usenet.py: NNTPFile.init_data; rescene/main.py: `_rarreader_usenet` | the reader is any program of calls on the file; connecting, the quit of old connections and printing are left out; NNTPTemporaryError is OSError |
| `Cmd.v` | rescene/srr.py: create_srr, can_overwrite; resample/srs.py: can_overwrite and the parts of main that create, rebuild, try other places and replace | file operations of `Disk.v`; the answer to the question is an input, and so are the bytes of every rebuilt file; the messages are left out |
| `Dirs.v` | bin/pyrescene.py: get_release_directories, is_release, NOT_SCENE; rescene/utility.py: DISK_FOLDERS, RELEASE_FOLDERS | regular expressions as a small matcher with derivatives; case and digits of ASCII; links, Windows names and the wait for a drive are left out |
| `Image.v` | bin/pyrescene.py: fixed_resolution_cover, test_jpeg, get_image_size | the tests of imghdr for JPEG, PNG and GIF are modelled, with a parameter for what differs between versions of Python; its other tests are for other first bytes |
| `Select.v` | bin/pyrescene.py: get_files, get_proof_files, filter_proof_image_files, always_skip, store_rls_root, similar_to_good_name, collect_known_good_filenames, filter_proof_rar_files, has_stored_proof_ext, strip_zeros | sizes, posters (C68) and names in archives are parameters; case of ASCII; patterns are those with a star in front; messages are left out |
| `Wanted.v` | bin/pyrescene.py: remove_unwanted_sfvs, get_unwanted_sfvs, get_start_rar_files | the names in SFV files, the files on disk and in archives are parameters; regular expressions by the matcher of Dirs.v; case and digits of ASCII; the order of a Python set is taken as that of the list |
| `Retag.v` | bin/retag.py: fix_tracks, fix_tagging, join_fix_case, exit status of main | reading a .srs file and rebuilding a track are parameters; the input is not changed by the run; files in the output are not replaced (option -n); case of ASCII letters |
| `Media.v` | bin/pyrescene.py: get_files_list, get_sample_files, get_music_files, same_srs_name and srs_result in generate_srr; rescene/utility.py: FileType.VideoExtensions | the names in an SFV file are a parameter; os.path.exists looks for files of the release; case of ASCII letters |
| `Stored.v` | bin/pyrescene.py: the last part of generate_srr (order of SFV files, sort of music files with key_sort_music_files, check against SFV files, archives above SFV files, excluded files) | copy_to_working_dir, reading .srs files and the regular expression of the user are parameters; CRCs are numbers; case of ASCII letters |
| `Sorting.v` | bin/srr_sort.py: the ten checks and check | options -m, -v, -d and -l, moving the file and output are left out; case of ASCII letters |
| `SameSfv.v` | rescene/utility.py same_sfv (and parse_sfv_file, which opens the file) | names of latin-1 as in Sfv.v |
| `NzbFix.v` | usenet/nzb_utils.py read_nzb | pynzb's parser is a parameter; opening the file and output are left out |
| `Subs.v` | bin/pyrescene.py create_srr_for_subs with extract_and_create_srr | unrar is a tree that says what is in each archive; create_srr and the folders never fail; names of temporary folders are left out |
| `NzbSplit.v` | usenet/nzb_split.py main, longest_name | the regular expressions, parse_name and grab_base_name are parameters; reading an NZB file that was written gives the files written |
| `WorkDir.v` | bin/pyrescene.py work_dir_file, copy_to_working_dir; the loops over the files to copy (946-965) and over .srs files (1105-1112) | os.makedirs always works, files that exist can be copied; POSIX; nothing is copied into the release |
| `UsePrep.v` | usenet/srr_usenet.py create_srr 1117-1253 (the choice of files), NNTPFile.__init__ (name, segments), `__eq__`, `__lt__` by name, has_first_segment; usenet/nzb_utils.py parse_name, equality of segments | subjects of one line, digits are ASCII; parse_sfv_file and file_size of posted files and the two regular expressions for repacks are oracles; the dictionary keeps insertion order |
| `Collect.v` | rescene/main.py _handle_sfv 883-907, _rarreader_usenet 642-667 for paths, _handle_rar 909-960, the loop of create_srr 507-518 | the file system is a list of paths and data; paths only, not posted files; nntplib is there |
| `UsenetSrr.v` | rescene/main.py create_srr_fh 686-881, _handle_sfv, _handle_rar, _rarreader_usenet for posted files, _store_fh 1601-1613; usenet/srr_usenet.py create_srr 1253-1285 (both attempts) | posted files are name, data or failure, told size and whether the last segment is there; reading gives the same each time, so retries do not help; lower() of ASCII; events and messages are left out; the folder for SRR files without SFV is not modelled |
| `Preprar.v` | bin/preprardir.py extract_rarbin 112-176, get_rar_date_name 178-193, VersionTag 195-209, versiontag 211-233 | expressions are lists of matches in the order of backtracking; ASCII digits only; an installer is the names and times of its files, a TAR file with the text of its date, or something else; extracting works and renaming replaces, as on Linux; the other files of the folder and the messages are not modelled |
| `NzbMove.v` | usenet/srr_usenet.py create_srr_nzbmove 1354-1429, process_dir 1431-1441, create_srr 1253-1256 (dry run), NNTPFile.stat_last_segment 1019-1081 | the outcome of create_srr is given for each NZB file; Python 3, where IOError is socket.error; os.rename of Linux; folders without glob characters; answers of a server do not change; no GROUP command; sleeping and messages are left out |
| `Bitflip.v` | scripts/bitflip.py precalculate 79-94, main 96-277 with validate_table 139-152 | whole file in memory; range and skip are not negative; zlib.crc32 as in Crc.v and crc32_combine as in Combine.v, both masked; messages are left out; of --bytecheck and --bitswitch together the first counts |
| `Compr.v` | rescene/main.py compressed_rar_file_factory 1998-2056, followed_by_solid_block 2066-2077, next_block 2079-2087, previous_block 2089-2098, get_archived_file_blocks 2100-2124, get_set 2126-2136, get_full_packed_size 2138-2145, get_most_recent_date 2513-2523, calculate_size_volume 2603-2620 | blocks are compared by an identity number; files are found and compress as they should, so the fallback regular_method_failed is left out; names have no line breaks and \d is 0 to 9; years have four digits |
| `Locate.v` | rescene/main.py _locate_file 1453-1491, _auto_locate_renamed 1493-1506; rescene/srr.py hints 300-307 | os.walk is a given list; the folder is absolute, so abspath is normpath; of what is no file no size is modelled; messages are left out |
| `Search.v` | rescene/main.py RarArguments 1845-1995 (arglist, setters), search_matching_rar_executable 2249-2466 (order of attempts, arguments) | whether a command makes the right data is an oracle; making the data piece is left out, the size of volumes set from it is given; store_all_files is empty; EmptyRepository is a RuntimeError value |
| `Fix.v` | bin/pyrescene.py rar_file_blacklist 96-126, is_storable_fix 653-663, storing the RAR file of a fix 1114-1128 | regular expressions by the engine of `Dirs.v`, case of ASCII; parse_sfv_file is an oracle; files on disk as in `WorkDir.v` |
| `Vob.v` | rescene/main.py create_srr_single_volume 588-630; rescene/utility.py create_temp_file_name 451-466; bin/pyrescene.py SRR file of a rared .vob sample 1073-1101 | the SRS file is given by its sample name and signature; mktemp adds a given text; no folders, no failing file operations (those are in `Disk.v`) |
| `Run.v` | bin/pyrescene.py main loop over the releases 1700-1826, can_create 138-147, output folder 1605-1613, can_overwrite 1616-1629 | the outcome of a release is given by a function of the releases gone through before; messages are left out |
| `Listing.v` | bin/pyrescene.py main, options that only list releases 1564-1602; rescene/utility.py FileType.VideoExtensions 139-142 | os.listdir is given; the release folders are given (get_release_directories is in `Dirs.v`); lines printed before an error are left out; ASCII case |
| `Entry.v` | rescene/srr.py main 562-614 and manage_srr 207-333 (what is chosen, exit status), 242 and 279 (names shown), create_srr 348-360 (name of the SRR file) | how the functions of the package end is given; option parsing and messages are left out; -d when extracting is left out |
| `MkvFix.v` | scripts/mkvfix_usenet.py fix_usenet, check_fixable and the copy in main | what get_data reads is given; the start is in the file; printing is left out |
| `Fpcalc.v` | resample/fpcalc.py fingerprint | the output of fpcalc and the music data read by Mp3Reader are given; file names just by being ASCII; printing is left out |
| `SampleNzb.v` | usenet/nzb_sample_extract.py is_sample, extract_sample, main; nzb_utils.py get_xml by its type | names of files in the NZB file (parse_name) and reading it are given; folders are listed at the start; names without line breaks, ASCII lower case and digits; folders can be made |
| `NzbMerge.v` | usenet/nzb_merge.py merge_nzbs, main; nzb_utils.py get_xml by its type | what is in NZB files is given; os.path.isdir of bare names is given; ASCII lower case |
| `NzbRename.v` | usenet/nzb_rename.py main, process_nzb | names and longest names of the files in NZB files are given (longest_name: NzbSplit.v); the folder processed can be made; printing is left out |
| `MoveScene.v` | scripts/move_scene.py main, get_groupname, get_groups | names of the folders are those at the start; folders are not empty and not moved into themselves; empty folders removed by os.renames and printing are left out |
| `CountGroups.v` | scripts/count_groups.py start_count; scripts/group_series.py main from the names of the series on | regular expressions of group_series.py and its option -f; the lines are pairs of name and count |
| `NzbAge.v` | usenet/nzb_age.py main | parsing of the limits; local time (UTC is taken); Unicode digits; files that cannot be read; the output folder is another one |
| `ListCompare.v` | scripts/list_compare.py read_txt, print_releases, main | decoding; options; the order of printing (that of a set); Python before 3.11 |

The disk contents, `can_overwrite` and the order of listed directories are
parameters of the model, so the theorems hold for all of them.

## Plan per property

| Property | Modelled | Method |
|---|---|---|
| C01 | RarReader in RAR and SRR mode, create_srr (store part), reconstruct, _repack, recovery record | independent grammar of RAR volumes; simulation reader/writer |
| C02 | constructors and parsers of the five SRR blocks, reader loop | round trip by codec lemmas |
| C03 | extract_files, _opath, srr_data | invariant over the loop |
| C04-C07 | add/remove/rename/merge as functions on SRR bytes | reader lemma of C02 plus list reasoning |
| C08, C09 | joinpath, os_file_name, _opath, _store naming | path component specification; C09 expected to be refuted |
| C10 | can_overwrite at each write | frame property over the file system |
| C11, C12 | operation traces | all prefixes / all failures; expected partly refuted |
| C13 | RarStream | refinement of a flat file |
| C14 | _osorg_hash | arithmetic modulo 2^64 |
| C15, C16 | crc32 as bitwise LFSR, GF(2) matrices | linear algebra over GF(2) |
| C17, C18 | parse_sfv_data, SfvEntry | line by line specification; order laws (C18 expected partly refuted) |
| C19, C20 | next_archive, is_rar, first_rars | digit arithmetic |
| C21, C23 | flag tables, DOS time | exhaustive computation lifted to a theorem; div/mod |
| C22 | UnicodeFilename.decode | encoder relation |
| C24 | _write_recovery_record | XOR algebra |
| C25, C26 | info, content_hash over read_all | fold over the blocks of a set of volumes; dictionary lemmas; sorted lists are unique; name collisions refuted |
| C27 | reconstruct with a volume filter (PartSpec.v: offsets of parts) | refuted in general (stale offset, directories); proved for volumes whose parts are at the offset used, by simulation of the loop over skipped, selected and again skipped volumes (PartFacts.v) |
| C28 | CRC events in reconstruct (MatchSpec.v: crcs_match) | loop invariant relating the running CRC to the bytes read so far, both directions (MatchFacts.v) |
| C29-C33 | EBML, ID3, FileData, TrackData codecs | round trips |
| C34 | stream_*, StreamReader, srs.py rebuild flow (StrmSpec.v: occurs, first_occurs) | windowed search: loop invariant on occurrences; what has been serialized is read back; CRC and size of what is rebuilt |
| C38 | MKV profile, create, load, search, extract, rebuild | file grammar in MkvSpec.v: elements, blocks with laced frames, lists of tracks and attachments, clusters; the reader is run over it; refuted for attachments behind the clusters, equal names, numbers above 127 in one byte, frames that hide the begin, different removed headers, no segment |
| C39 | stsc, TrackStream, mp4_add_track_stream, reading the tables | table specification (`in_table`), induction on the table; the reader of boxes is run over a file grammar (Mp4Spec.v); refuted for stz2 |
| C40 | yenc decode, yCheck, ySplit, strip (YencSpec.v: ychar, control lines) | the eight replacements are commuted with the grammar of escapes (YencFacts.v); control lines by lemmas about the key search; refuted for other escapes and some names |
| C41 | MessageThread / Observer as a two thread transition system (MsgSpec.v: lines, in_time) | invariant with a ghost list of the messages put in time (MsgFacts.v); refuted by a schedule |
| C42 | escape_glob, _search, glob, fnmatch (GlobSpec.v: stands_for, file_at) | escaping commutes with splitting paths; an escaped component matches itself only; induction over the directories (GlobFacts.v) |
| C43 | change_rescene_name_version, header block (RarexeSpec.v: scalar, utf8_size) | size of the UTF-8 encoding against the 16 bit header size; refuted for non-ASCII |
| C44 | mp3_match_signature | window invariant of the search; refuted with an ID3v2 tag in the main file |
| C49 | create_srr as file operations | all fates of the operations; refuted for errors that are not cleaned up |
| C45 | readers on arbitrary bytes | fuel bound; refuted for the stream, MP4 and ASF readers (proved without sizes 0), proved for the MP3, FLAC, RIFF and EBML readers |
| C46 | reader on arbitrary bytes | adjacency |
| C47 | RarRepository, RarExecutable (RarexeSpec.v: exe_file, good_order) | insertion sort is a sorted permutation; filter splits the list |
| C48 | increase_thread_count (RarexeSpec.v: takes, limits, allowed) | each step goes up and stays under the maximum: a measure; refuted for min over max |
| C50 | increase_thread_count | the next count is the least allowed one above the current; refuted for unsorted sets |
| C51 | _search | a counterexample to the documented wildcards |
| C52 | info: archived files (ListSpec.v: parts, firsts, says) | each block changes one component of the listing; a dictionary filled one by one is a fold over the parts of each name; refuted for an empty first part |
| C53 | info: stored files, application, hashes, recovery (ListSpec.v) | the same decomposition |
| C54 | info: SFV sums (ListSpec.v: sfv_files, sum_for) | the account of each SFV file (C17) and induction over the entries |
| C35 | MP3 reader, profile, create, load, search, extract, rebuild | file grammar in Mp3Spec.v, the reader finds exactly its parts, then the folds over the parts; refuted where an SRS seems to end in other tags |
| C36 | FLAC reader, profile, create, load, search, extract, rebuild | file grammar in FlacSpec.v, the reader finds exactly its parts (`reads`), then runs over the parts; refuted for samples with ID3 tags |
| C55 | fingerprint blocks in SRS files of MP3 and FLAC | the SRS is read back block by block (lemmas for C35 and C36) |
| C56 | MP4 profile, create, load, search, extract, rebuild | file grammar in Mp4Spec.v with the tracks as lists of samples in chunks; refuted for two boxes mdat and track numbers of more than 16 bits |
| C37 | AVI profile, create, load, search, extract, rebuild | file grammar in AviSpec.v: headers of lists and chunks one after the other; the reader is run over it; refuted for a first match inside a chunk, streams that end early, empty streams, no list movi |
| C57 | WMV profile, create, load, search, extract, rebuild | file grammar in WmvSpec.v: objects, header object, packets with all field widths, whole and compressed payloads, padding; the reader is run over it; refuted for streams that only the movie has, streams without data, heads that are together as long as a packet |
| C58 | verify_extracted_files over info, disk as a function | verdict per packed file in VerifySpec.v (recorded CRC, place below the folder, renamed file), result is the last bad verdict; refuted for CRC 0 and absolute names |
| C59 | capitalized_fn with the listing as a parameter | first entry equal but for case (CapitalSpec.v), for all listings; refuted for two such entries |
| C60 | reconstruct with the option for empty files; FakeFile | simulation with a disk that has files of zero bytes in place of missing ones (FakeSim.v), volumes with zeroed data in FakeSpec.v; the object against a relation for reading a file |
| C61 | search with the other places, guesses, combinations, repeated extraction and rebuilding over files that keep their contents | invariant over attempts (MkvAgain.v): a track at its right place has the data of the sample in its file; places tried as a relation in MkvRetrySpec.v; refuted when all tracks have other places and when a first place must be kept |
| C62 | file_type_info; AVI, MKV, WMV, MP4, FLAC, MP3 and stream functions as programs over seek, tell and read | every program has the same result on a RarStream as on the file (ProgFacts.v, by the invariant of StreamFacts.v); the programs equal the functions over bytes (AviProgFacts.v, MkvProgFacts.v, WmvProgFacts.v, Mp4ProgFacts.v, FlacProgFacts.v, Mp3ProgFacts.v, StrmProgFacts.v); refuted for MP4 movies that are not the first file, ID3 tags and names in capitals |
| C63 | OrderedDict with its doubly linked list of nodes | the heap holds a ring of nodes whose keys are those of a list of pairs; every call keeps this and gives the reply of the list (ODictFacts.v) |
| C64 | NNTPFile: the segments held, seek, read | the segments held are begins of those posted; a read finds its first and last segment and joins them (NntpFacts.v); refuted for partly grabbed segments, reads beyond the end and names of RAR volumes |
| C65 | init_data and _rarreader_usenet | a relation between a file after init_data and a new file is kept by every call, with all of the repairs for RAR volumes (RetryFacts.v); induction over the tries |
| C66 | the commands srr and srs on the disk | every operation has a fate (works, fails, program stopped); a lemma per stage on what is where, induction over the places that are tried (CmdFacts.v) |
| C67 | the walk over directories and is_release | the matcher is proved right for the language of a pattern, then the names; induction over trees with the last release found (DirsFacts.v), order in DirsOrder.v |
| C68 | the size of an image | the position in the file is followed through the blocks; each step goes forward, so the loop ends (ImageFacts.v) |
| C69 | the search for images | files are found by induction over trees; names by what they begin and end with (SelectFacts.v) |
| C70 | the choice of SFV files | each test is brought to a condition on names; the first pass keeps the main file, so the second is not reached (WantedFacts.v); first volumes by C20 |
| C71 | fixing tags | one file is extracted per name (from C03), the search follows the only path that matches up to case, the loop is an induction over the .srs files (RetagFacts.v); four witnesses by computation |
| C72 | media files and names of .srs files | no extension of a video ends with another, so get_files_list is a filter of all files; the runs of groupby have a count above 1 exactly if two neighbours are equal (MediaFacts.v); witnesses by computation |
| C73 | order of stored files | the loop of moves keeps the form "each file after those moved that belong to it" (StoredFacts.v, weave); the sort is an insertion sort with Python's order of texts |
| C74 | files left out | the loops of list.remove are filters, since earlier files with the same value are gone (StoredFacts.v); two witnesses by computation |
| C75 | SRR files listed by srr_sort | the loop over blocks is a search in the list of items (SortingFacts.v, from read_all_srr); each check is an iff with membership of an item; witnesses by computation for the three refutations |
| C76 | comparing SFV files | entry lines are functional (entry_complete), sorted lists of distinct names are unique where sfv_lt is transitive (SameSfvFacts.v); witnesses by computation |
| C77 | repaired NZB files | the three substitutions are related to an inductive relation on bytes by cases on the first byte (NzbFixFacts.v, line_spec); the loop over lines by induction; witnesses by computation |
| C78 | SRR files for vobsubs | nested induction over archives in archives (SubsFacts.v, extract_right), the loop over first volumes as a list of results (loop_good); witnesses by computation |
| C79 | splitting NZB files | invariant of the loop: the files not yet written are those at the end with the same release (NzbSplitFacts.v, loop_spec); words by induction on the subject; witnesses by computation |
| C80 | copies in the working directory | capitalized_ok of C59 and relpath_below of C09 for one file, induction over the list with the part of the disk outside the working directory unchanged (WorkDirFacts.v); witness by computation |
| C81 | the files of an NZB file | a fold that keeps what is strictly better gives the first best for a strict weak order, the dictionary by names is such a fold for each name; the loop that moves SFV files by an invariant with a part done, a part to do and a part moved (UsePrepFacts.v); witnesses by computation |
| C82 | the volumes an SRR file is made of | the next name is strictly ahead in a measure, so the walk ends and has nothing twice; along a set the next name is the next volume (C19) until one lacks; SFV files by C17 and C18 (CollectFacts.v); witnesses by computation |
| C83 | SRR files of posted files | aliases in the dict keep a case-insensitive link to the posted files; with names that differ not only in capitals the alias for a name is the file it picks; the copy loop with its test flag refines mapR volume_bytes (UsenetSrrFacts.v); witnesses by computation |
| C84 | Names of RAR executables | membership in the list of matches against an existential reading of the name; the head of the list for Windows names and uniqueness of the reading for Unix names; dates as decimal digits of the DOS time; induction over the installers (PreprarFacts.v); witnesses by computation |
| C85 | Places of NZB files | the disk after each step is a function of the one before; places are one level deeper than the files, so no step touches what a later one reads; induction over the files (NzbMoveFacts.v); witnesses by computation |
| C86 | Search for a wrong bit | invariant of the parts: the CRC before and behind the byte are those of the whole file (combine_ok); membership of the table keys; exactness: the difference of two CRCs is a power of x, and x has order 2^32-1, proved from its five prime factors with matrix squaring; 1+x by its discrete logarithm (BitflipCrcFacts.v) |
| C87 | Blocks to rebuild compressed archives | invariant of the loop over the volumes (set name, own set); specification by splitting the SRR blocks in those before, of, and behind the archive; dates by the order of fixed width texts |
| C88 | Files of an archive on the disk | iff with an inductive specification of the outcomes (deterministic); first match of a flattened listing; normal paths by normpath_normal; hints as a parse and print bijection |
| C89 | Search of the RAR executable | simulation: the loops go through a list of attempts given by an inductive specification (thread lists by C48/C50, commands by a relation that is deterministic), first working one; invariant: the arguments keep their shape |
| C90 | RAR files of fixes | languages of the regular expressions (inversion lemmas) = separate description by substrings; the copy is that of one .srs file in C80 under the condition |
| C91 | SRR file of a rared sample | the bytes written are the serialisation of SRR items that hold the volume (lemmas of C01), replace_result by the lemmas on file operations (DiskFacts); the reconstruction by C01_any_srr |
| C92 | releases gone through and exit status | relation `through` of releases and those without SRR file, by induction over the releases; answers of the user as a list |
| C93 | listing of releases | relation `printed` of releases and lines; the regular expression by its language |
| C94 | the command srr | options as a ranked list of which the first counts; exit status 0 as a predicate on the outcomes; cases |
| C95 | fixed MKV files | elements by their layout (lemmas of the EBML numbers), sorting by permutation and order, sizes by arithmetic |
| C96 | fingerprinted data | search by induction on batches, reversed search by induction on its end, output lines by induction from the end, three attempts by cases |
| C97 | NZB files of samples | regular expression by decompositions, chosen files by induction, arguments by induction with sources kept by the places being apart |
| C98 | merged NZB files | stable insertion sort (permutation, order, stability), folders by membership, releases by induction |
| C99 | renamed NZB files | name by induction on the files, folder by induction on the names with the rest of it kept |
| C100 | moved releases | str.replace by strong induction on the length, split by induction from the right; folders by induction on the names with the rest of the disk kept |
| C101 | counted groups and series | insertion sort is a sorted permutation, runs by induction, the dictionary by induction from the right, the last run by reversing the list |
| C102 | age of NZB files | regular expression by decompositions of the line, days by the division of integers, folder by induction on its files |
| C103 | comparing lists of releases | lines by induction on how the list is written, sets by membership |
