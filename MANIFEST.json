{
 "claims": [
  {
   "property": "C01",
   "status": "proved",
   "theorems": [
    "C01_roundtrip",
    "C01_injective",
    "C01_surjective"
   ],
   "note": ""
  },
  {
   "property": "C02",
   "status": "proved",
   "theorems": [
    "C02_order",
    "C02_generations_adjacent"
   ],
   "note": ""
  },
  {
   "property": "C03",
   "status": "partial",
   "theorems": [
    "C03_sign_partial",
    "C03_index_order_partial",
    "C03_total_order_partial",
    "C03_magnitude_refuted"
   ],
   "note": "total order and index order proved; the documented result range -1/+1 is false (type difference is returned)"
  },
  {
   "property": "C04",
   "status": "proved",
   "theorems": [
    "C04_bracket",
    "C04_exact_and_all",
    "C04_too_many"
   ],
   "note": ""
  },
  {
   "property": "C05",
   "status": "proved",
   "theorems": [
    "C05_uint16",
    "C05_uint32",
    "C05_uint64",
    "C05_abort",
    "C05_uuid",
    "C05_key"
   ],
   "note": "explicit value formulas for every byte content; abort condition exact for the fixed width reads"
  },
  {
   "property": "C06",
   "status": "proved",
   "theorems": [
    "C06_header",
    "C06_item",
    "C06_item_data",
    "C06_dev_extent",
    "C06_dev_item",
    "C06_stripe",
    "C06_chunk",
    "C06_inode_item",
    "C06_inode_ref",
    "C06_dir_item",
    "C06_block_group",
    "C06_file_extent",
    "C06_root_item",
    "C06_root_ref",
    "C06_extent_item",
    "C06_sizes",
    "C06_csum_item"
   ],
   "note": "every accessor against the packed structure; stripes for chunk items below 64 KiB; time stamps with nsec < 1e9"
  },
  {
   "property": "C07",
   "status": "partial",
   "theorems": [
    "C07_truncated_partial",
    "C07_truncated_refuted"
   ],
   "note": "full statement false: slices with slack capacity are over-read (witness); exact for values without slack capacity"
  },
  {
   "property": "C08",
   "status": "proved",
   "theorems": [
    "C08_names_exact",
    "C08_names_long",
    "C08_names_bounded"
   ],
   "note": ""
  },
  {
   "property": "C09",
   "status": "proved",
   "theorems": [
    "C09_xattr_data"
   ],
   "note": "for items that fit a 64 KiB block"
  },
  {
   "property": "C10",
   "status": "partial",
   "theorems": [
    "C10_inline_partial",
    "C10_inline_refuted"
   ],
   "note": "false for compressed inline extents (witness); proved for uncompressed data up to 16 KiB"
  },
  {
   "property": "C11",
   "status": "proved",
   "theorems": [
    "C11_metadata"
   ],
   "note": ""
  },
  {
   "property": "C12",
   "status": "proved",
   "theorems": [
    "C12_upgrade_lossless",
    "C12_upgrade_injective"
   ],
   "note": ""
  },
  {
   "property": "C13",
   "status": "proved",
   "theorems": [
    "C13_leaf"
   ],
   "note": ""
  },
  {
   "property": "C14",
   "status": "partial",
   "theorems": [
    "C14_items_abort_iff",
    "C14_items_partial",
    "C14_items_refuted"
   ],
   "note": "false: the clamp ignores the 101 byte header; exact abort condition proved"
  },
  {
   "property": "C15",
   "status": "proved",
   "theorems": [
    "C15_leaf_data_inside",
    "C15_leaf_data_aborts"
   ],
   "note": "data returned is inside the block; the call itself aborts for offsets outside"
  },
  {
   "property": "C16",
   "status": "proved",
   "theorems": [
    "C16_last_insert",
    "C16_header_and_data",
    "C16_others_unchanged",
    "C16_metadata_overwritten_refuted"
   ],
   "note": "An item carrying the reserved metadata key overwrites the metadata record (refuted variant)."
  },
  {
   "property": "C17",
   "status": "partial",
   "theorems": [
    "C17_latest_partial",
    "C17_selected_partial",
    "C17_documented_partial",
    "C17_refuted"
   ],
   "note": "true for the default generation and when versions do not straddle the index generation; false otherwise (witness: versions 3 and 7, index generation 5)"
  },
  {
   "property": "C18",
   "status": "partial",
   "theorems": [
    "C18_no_abort_partial",
    "C18_abort_iff_partial",
    "C18_refuted"
   ],
   "note": "aborts exactly for owner 2^64-1, type 255, object id > 2^64-256"
  },
  {
   "property": "C19",
   "status": "partial",
   "theorems": [
    "C19_exact_partial",
    "C19_uniform_partial",
    "C19_refuted"
   ],
   "note": "exact behaviour: the longest prefix of offsets that have the generation of the first item; equals the claim if one generation is stored; false otherwise"
  },
  {
   "property": "C20",
   "status": "partial",
   "theorems": [
    "C20_terminates_partial",
    "C20_refuted",
    "C20_max_generation_refuted"
   ],
   "note": "terminates unless the first entry of the next owner aliases a key of this owner, or generation 2^64-1 is stored; both exceptions loop forever"
  },
  {
   "property": "C21",
   "status": "partial",
   "theorems": [
    "C21_bounds_partial",
    "C21_last_refuted",
    "C21_first_refuted"
   ],
   "note": "bounds are inclusive of last, and the offset of first is ignored"
  },
  {
   "property": "C22",
   "status": "partial",
   "theorems": [
    "C22_uniform_partial",
    "C22_needs_256_partial",
    "C22_refuted"
   ],
   "note": "only if subvolume id 256 exists; otherwise nothing is listed"
  },
  {
   "property": "C23",
   "status": "partial",
   "theorems": [
    "C23_all_partial",
    "C23_empty_refuted"
   ],
   "note": "true for a read-only index with at least one item; an index with only the metadata record can abort"
  },
  {
   "property": "C24",
   "status": "proved",
   "theorems": [
    "C24_crash",
    "C24_crash_with_errors",
    "C24_bound_tight"
   ],
   "note": "Relative to bbolt commits being atomic."
  },
  {
   "property": "C25",
   "status": "proved",
   "theorems": [
    "C25_open_existing",
    "C25_open_new",
    "C25_damaged_refuted"
   ],
   "note": "A metadata record shorter than 8 bytes aborts instead of reporting an error."
  },
  {
   "property": "C26",
   "status": "proved",
   "theorems": [
    "C26_readonly",
    "C26_insert_then_close"
   ],
   "note": ""
  },
  {
   "property": "C27",
   "status": "partial",
   "theorems": [
    "C27_queries_partial",
    "C27_refuted",
    "C27_commit_refuted",
    "C27_revived_partial"
   ],
   "note": "False of the code: after a commit (explicit, or automatic at the 10001st insert) queries abort until the next insert."
  },
  {
   "property": "C28",
   "status": "partial",
   "theorems": [
    "C28_physical_partial",
    "C28_no_chunks_refuted",
    "C28_below_refuted",
    "C28_behind_refuted"
   ],
   "note": "proved for addresses inside known chunks of one generation; outside it aborts or maps to unrelated addresses"
  },
  {
   "property": "C29",
   "status": "partial",
   "theorems": [
    "C29_filled_partial",
    "C29_first_alone_partial",
    "C29_abort_refuted",
    "C29_lasting_refuted"
   ],
   "note": "Every interleaving is right once the cache is filled, or if one request fills it before the others start. Refuted otherwise: a request can see the empty map and abort, and two fillers leave a map that answers wrongly ever after."
  },
  {
   "property": "C30",
   "status": "partial",
   "theorems": [
    "C30_path_partial",
    "C30_packed_refuted",
    "C30_root_refuted"
   ],
   "note": "Exact (sound and complete, across subvolumes) in a well-formed tree where each directory record holds one entry, all of one generation, names unique. Refuted: entries packed into one record after a hash collision are not found; the empty path and \"/\" have no item."
  },
  {
   "property": "C31",
   "status": "proved",
   "theorems": [
    "C31_name_hash",
    "C31_fits",
    "C31_single_byte"
   ],
   "note": "hash/crc32 is modelled as the table-driven algorithm of the Go library."
  },
  {
   "property": "C32",
   "status": "proved",
   "theorems": [
    "C32_parse",
    "C32_accepts",
    "C32_roundtrip",
    "C32_shape",
    "C32_string_injective",
    "C32_case",
    "C32_zero_and_ones"
   ],
   "note": ""
  },
  {
   "property": "C33",
   "status": "proved",
   "theorems": [
    "C33_object_id",
    "C33_key_type",
    "C33_key",
    "C33_numbers",
    "C33_item_types",
    "C33_objects"
   ],
   "note": "SpecNames.v lists the names of the btrfs format independently of the program."
  },
  {
   "property": "C34",
   "status": "partial",
   "theorems": [
    "C34_sequential",
    "C34_new",
    "C34_rewind",
    "C34_beyond_partial",
    "C34_beyond_refuted",
    "C34_time_moves_refuted"
   ],
   "note": "Reading past the end aborts only if the slice has no spare capacity; NextTime moves by 8 before aborting."
  },
  {
   "property": "C35",
   "status": "partial",
   "theorems": [
    "C35_full_or_error",
    "C35_file_reader_partial",
    "C35_eof_on_full_read_refuted",
    "C35_short_read_undetected_refuted"
   ],
   "note": "nil is returned only for full blocks (proved); EOF is reported for a full read if the reader returns it along (refuted), never for file readers."
  },
  {
   "property": "C36",
   "status": "partial",
   "theorems": [
    "C36_exact_partial",
    "C36_seek_error",
    "C36_wraparound_refuted",
    "C36_zero_block_refuted"
   ],
   "note": "Exact unless blockSize*100 + 64MiB exceeds 64 bits, where the product wraps."
  },
  {
   "property": "C37",
   "status": "partial",
   "theorems": [
    "C37_any_image_partial",
    "C37_exact_partial",
    "C37_refuted"
   ],
   "note": "C37_any_image_partial: for any image content, the exact resulting index: per tuple the last scanned item or the old value, where scanning stops at the first unreadable item; C37_exact_partial: for images whose blocks are well formed leaves or foreign blocks, the index holds exactly the items. Missing: the statement is false as given: C37_refuted, an intact leaf after a damaged one is not indexed. Items with the reserved key of the metadata record are excluded."
  },
  {
   "property": "C38",
   "status": "proved",
   "theorems": [
    "C38_again",
    "C38_same_outcome"
   ],
   "note": "for every image, previous content and outcome of the first scan (no write faults); C38_same_outcome adds that the second scan ends the same way unless an item has the reserved metadata key."
  },
  {
   "property": "C39",
   "status": "partial",
   "theorems": [
    "C39_completes_iff_partial",
    "C39_refuted",
    "C39_log_tree_refuted",
    "C39_small_blocks_refuted"
   ],
   "note": "exact condition for completing (every block foreign or all its items readable); the property as stated is refuted, even for undamaged images with a log tree (second superblock copy taken for a leaf)."
  },
  {
   "property": "C40",
   "status": "proved",
   "theorems": [
    "C40_counts",
    "C40_collects"
   ],
   "note": "Any block sequence that does not panic (every sequence of blocks of at least 126 bytes does not); any map iteration order; byte-level specification of leaf and id."
  },
  {
   "property": "C41",
   "status": "partial",
   "theorems": [
    "C41_order_partial",
    "C41_refuted"
   ],
   "note": "False as stated: coding.ShannonEntropy adds floats in map iteration order, so two ids with equal count and byte multiplicities can swap (C41_refuted, with the values Go's portable Log2 returns). Proved for any fixed non-NaN entropies: each id once, threshold, strict order, independence of map order and of the sorting algorithm. C103_true_order: with the float64 sums of the code the order of entries of equal count is that of the Shannon entropies but for a stated error, for every map order."
  },
  {
   "property": "C42",
   "status": "partial",
   "theorems": [
    "C42_exact_partial",
    "C42_enough_leaves_partial",
    "C42_refuted"
   ],
   "note": "False as stated: the first leaf is counted but its offset is not added (1 leaf -> 4096). Proved (IEEE binary64 via Flocq) exactly when the guess is B, and that enough leaves suffice."
  },
  {
   "property": "C43",
   "status": "partial",
   "theorems": [
    "C43_samples_partial",
    "C43_terminates_partial",
    "C43_too_few_refuted",
    "C43_too_many_refuted",
    "C43_outside_refuted",
    "C43_small_device_fails_refuted"
   ],
   "note": "False as stated: panics below 200/300/400 samples, never terminates above the number of available positions, and devices that just pass the size check get samples beyond their end. Proved: length, order, content, insideness for slightly larger devices, termination under a fair source."
  },
  {
   "property": "C44",
   "status": "proved",
   "theorems": [
    "C44_entropy",
    "C44_empty"
   ],
   "note": "Over the reals (uses the axioms of Coq's Reals); the result equals the textbook H for every iteration order, 0 <= H <= log2(distinct) <= log2(length), 0 iff constant, invariant under permutation."
  },
  {
   "property": "C45",
   "status": "proved",
   "theorems": [
    "C45_paths_inside",
    "C45_bad_names_skipped"
   ],
   "note": "Every system call that changes anything, in any run (any metadata, faults, crash), uses the destination or a plain descendant; only Mkdir may use leading parts of the destination. Relative to the file system model Fs.v."
  },
  {
   "property": "C46",
   "status": "partial",
   "theorems": [
    "C46_nothing_outside_partial",
    "C46_distinct_names_partial",
    "C46_refuted",
    "C46_directory_refuted",
    "C46_subvolume_refuted",
    "C46_lexical_refuted"
   ],
   "note": "False as stated: a symbolic link and a file or directory of the same name (or a link named subvol_N), or a destination 'link/../x', lead outside. Proved for a destination without links in it in two cases: metadata without symbolic links (any names), and metadata with symbolic links on any directory graph in which no directory has two items of the same name (or one without a name) and no top item is named like a subvolume's directory; both for any faults and crash points."
  },
  {
   "property": "C47",
   "status": "proved",
   "theorems": [
    "C47_no_clobber",
    "C47_stat_fault_refuted"
   ],
   "note": "For every tree, metadata, device, fault and crash point, provided os.Stat itself does not fail spuriously (C47_stat_fault_refuted shows that hypothesis is needed)."
  },
  {
   "property": "C48",
   "status": "proved",
   "theorems": [
    "C48_content",
    "C48_recovers"
   ],
   "note": "C48_content: whatever goes wrong, a success report with no non-EOF read error means the exact content; C48_recovers: without faults recovery succeeds. Compressed extents are copied as they are (not covered by the property)."
  },
  {
   "property": "C49",
   "status": "partial",
   "theorems": [
    "C49_file_partial",
    "C49_truncate_partial",
    "C49_warned_partial",
    "C49_read_error_refuted",
    "C49_truncate_refuted"
   ],
   "note": "False as stated: a device read error other than io.EOF is swallowed, and so is a failing truncate of a file without extents. Proved: failing opens, writes, symlinks, short reads, and truncates of files with extents are reported by the file's result and a warning."
  },
  {
   "property": "C50",
   "status": "partial",
   "theorems": [
    "C50_once",
    "C50_terminates",
    "C50_terminates_index",
    "C50_all_reachable_partial",
    "C50_refuted"
   ],
   "note": "Once and termination proved for every graph; completeness proved if no directory is reported as failed; false otherwise (name clash: the failed directory is marked visited)."
  },
  {
   "property": "C51",
   "status": "partial",
   "theorems": [
    "C51_rerun",
    "C51_rerun_clobber",
    "C51_rerun_clobber_partial",
    "C51_rerun_refuted"
   ],
   "note": "False without --clobber if a file was left incomplete (it is kept: C51_rerun_refuted). The whole command on every volume that describes a tree: complete after the second run if that has --clobber (C51_rerun_clobber) or if no file was left incomplete (C51_rerun), for any crash point, and any faults except failing directory operations, of the interrupted run; per file for every index (C51_rerun_clobber_partial). Crash = process killed; no loss of cached writes."
  },
  {
   "property": "C52",
   "status": "proved",
   "theorems": [
    "C52_target",
    "C52_no_clobber",
    "C52_recovers"
   ],
   "note": ""
  },
  {
   "property": "C53",
   "status": "partial",
   "theorems": [
    "C53_prefix_partial",
    "C53_readable_partial",
    "C53_inline_partial",
    "C53_short_refuted",
    "C53_gap_refuted",
    "C53_device_end_refuted",
    "C53_inline_first_refuted",
    "C53_empty_refuted"
   ],
   "note": "False as stated (see the refutations: short answers, gaps, device end, inline extent followed by others, empty files cannot be opened). Proved: what is returned is the right prefix of the content, and inline files are read exactly."
  },
  {
   "property": "C54",
   "status": "partial",
   "theorems": [
    "C54_listing",
    "C54_lookup_partial",
    "C54_refuted",
    "C54_packed_refuted"
   ],
   "note": "Listing exact for every index; lookup agrees with the listing when names are unique and each record holds one entry; refuted otherwise."
  },
  {
   "property": "C55",
   "status": "proved",
   "theorems": [
    "C55_attributes",
    "C55_enoattr",
    "C55_open_file",
    "C55_open_file_fallback"
   ],
   "note": "rdev is truncated to the 32 bits of the FUSE field."
  },
  {
   "property": "C56",
   "status": "proved",
   "theorems": [
    "C56_list",
    "C56_get",
    "C56_listed_iff_found",
    "C56_damaged_refuted"
   ],
   "note": "For items whose name and value lie inside the item; C56_damaged_refuted shows that hypothesis is needed."
  },
  {
   "property": "C57",
   "status": "partial",
   "theorems": [
    "C57_zeroes_partial",
    "C57_refuted"
   ],
   "note": "Proved for a nil device interface; refuted for the value mount passes without an image: a typed nil *os.File inside a non-nil interface, so reads fail with EIO."
  },
  {
   "property": "C58",
   "status": "partial",
   "theorems": [
    "C58_genuine_partial",
    "C58_first_alone_partial",
    "C58_refuted"
   ],
   "note": "Nothing foreign is ever seen; the listing is complete for requests that start after one request has read the directory. Refuted: a request arriving during the first read sees part of the directory."
  },
  {
   "property": "C59",
   "status": "proved",
   "theorems": [
    "C59_mode",
    "C59_distinct",
    "C59_type",
    "C59_type_distinct"
   ],
   "note": "Every mode (any integer)."
  },
  {
   "property": "C60",
   "status": "partial",
   "theorems": [
    "C60_strict_weak_order",
    "C60_listing_partial",
    "C60_packed_refuted"
   ],
   "note": "Order, permutation and the text of every line proved for any sorting algorithm and records of one entry; an entry packed into the record of another (name hash collision) is not listed (refuted)."
  },
  {
   "property": "C61",
   "status": "partial",
   "theorems": [
    "C61_terminates_iff_partial",
    "C61_text_partial",
    "C61_refuted",
    "C61_subvolume_refuted"
   ],
   "note": "False as stated: cycles never end, subvolumes are listed with a directory of the parent tree. Proved: terminates exactly if the directory graph below is well founded, with the exact text."
  },
  {
   "property": "C62",
   "status": "proved",
   "theorems": [
    "C62_search"
   ],
   "note": ""
  },
  {
   "property": "C63",
   "status": "partial",
   "theorems": [
    "C63_image_kept_partial",
    "C63_refuted"
   ],
   "note": "recover: false with --clobber (link to the image plus a file of that name); proved without --clobber. The other commands have no write to the device in the model at all (the device is a reader function)."
  },
  {
   "property": "C64",
   "status": "proved",
   "theorems": [
    "C64_readlink"
   ],
   "note": ""
  },
  {
   "property": "C65",
   "status": "partial",
   "theorems": [
    "C65_arguments_partial",
    "C65_subvolume_refuted"
   ],
   "note": "Exact within the FS tree, relative to path lookup (C30); paths into subvolumes show the wrong tree (refuted). The alignment is C98."
  },
  {
   "property": "C66",
   "status": "partial",
   "theorems": [
    "C66_dump_partial",
    "C66_empty_refuted",
    "C66_heading_refuted",
    "C66_metadata_refuted"
   ],
   "note": "False as stated: the index's metadata record is printed as an entry, items of owner 2^64-1 have no heading, an empty index aborts. Proved: otherwise the exact text."
  },
  {
   "property": "C67",
   "status": "proved",
   "theorems": [
    "C67_whole_tree",
    "C67_new_destination",
    "C67_any_run"
   ],
   "note": "For volumes that form a tree (no directory reachable twice, distinct legal names per directory, uncompressed extents on the device, paths below 4096 bytes) and a destination spelled without '..' and links, existing (C67_whole_tree) or missing with any number of its ancestors (C67_new_destination). Devices, sockets and pipes are not restored by recover and not part of the tree."
  },
  {
   "property": "C68",
   "status": "partial",
   "theorems": [
    "C68_any_faults",
    "C68_read_error",
    "C68_items_kept_refuted"
   ],
   "note": "Prefix property under any read and write faults and honest success proved; exact result of a read error proved: failure, with the items before the block up to the last automatic commit (every 10001 items). That items of the readable blocks are kept is false of the code: refuted with one unreadable block, where nothing is kept."
  },
  {
   "property": "C69",
   "status": "proved",
   "theorems": [
    "C69_recon_then_recover"
   ],
   "note": "Bytes of the image to restored tree, from the specification SpecDisk.v (newest version of each item, key order, chunks) that does not use the index. The conditions on generations and group ends are those under which the index queries are right; C17, C20, C22 and C28 show what happens without them. Faultless run with a new metadata file and a destination that may be missing. C69_ex: image of six blocks with nested and orphaned subvolumes."
  },
  {
   "property": "C70",
   "status": "proved",
   "theorems": [
    "C70_mounted_tree",
    "C70_recon_then_mount",
    "C70_orphans_refuted"
   ],
   "note": "C70_mounted_tree for any index, C70_recon_then_mount from the bytes of the image. C70_orphans_refuted: subvolumes that no directory leads to are restored by recover (subvol_N) but not shown by mount, which is why the statement is about the main tree. Requests one at a time (C58 has the races); the FUSE library and the kernel are the request sequence. Files with gaps, mixed or no extents and missing inode items: C53, C54. C70_ex, C70_recon_ex: volumes with a nested subvolume."
  },
  {
   "property": "C71",
   "status": "proved",
   "theorems": [
    "C71_recon_then_ls",
    "C61_text_unique"
   ],
   "note": "Bytes of the image to the text handed to the tab writer. Subvolume entries are excluded: ls shows an unrelated directory for them (C61_subvolume_refuted, C65_subvolume_refuted). C71_ex: ls -r on an image with a nested directory, a hashed and an unhashed entry, a missing path."
  },
  {
   "property": "C72",
   "status": "proved",
   "theorems": [
    "C72_report",
    "C72_ends",
    "C72_found"
   ],
   "note": "The number of samples is any clamped wish (for the float product that makes the wish see C102). Termination is for random sources that draw every block at some time. Entropies are any non-NaN values, one per id (C41 shows they may depend on map order). Smaller images and other sample numbers: C43 refutations. C72_ex: an image with five leaves at the default options."
  },
  {
   "property": "C73",
   "status": "proved",
   "theorems": [
    "C73_again",
    "C73_any_run",
    "C73_twice"
   ],
   "note": "For the volumes and destinations of C67. C73_twice: two runs in a row from any start. Modification times and inode numbers are not modelled (with --clobber links are removed and created again)."
  },
  {
   "property": "C74",
   "status": "proved",
   "theorems": [
    "C74_device_errors",
    "C74_right_or_error"
   ],
   "note": "For every file and every device whose reads either fail with an error other than io.EOF or deliver what a sound file delivers. (io.EOF, the end of the device, is ignored: C53_device_end_refuted.)"
  },
  {
   "property": "C75",
   "status": "proved",
   "theorems": [
    "C75_damaged_device",
    "C48_from_damaged",
    "C52_from_damaged"
   ],
   "note": "For every tree, every set of unreadable positions and every device that never invents data and whose reads work where they touch no such position. A read error of a lost file is not reported to the user (C49_read_error_refuted)."
  },
  {
   "property": "C76",
   "status": "partial",
   "theorems": [
    "C76_incomplete_index_partial",
    "C76_refuted"
   ],
   "note": "Proved for all indexes whose remaining items can be decoded (no extent refers to a chunk map that is entirely lost). The full statement fails of the code: with no chunk item at all Physical panics on the first file with an extent on the device, and what comes later is not restored (C76_refuted)."
  },
  {
   "property": "C77",
   "status": "proved",
   "theorems": [
    "C77_missing_items"
   ],
   "note": "Conditions in the statement: the complete index describes a tree (SpecTree.volume_shows), subvolumes nested in others come later in the list of subvolumes (larger ids), no top-level name equals a subvol_N name recover would make up, addresses in use stay mapped (with no chunk item left the program panics: C76_refuted), the destination is empty and paths are short enough for the system. Example C77_ex."
  },
  {
   "property": "C78",
   "status": "proved",
   "theorems": [
    "C78_damaged_image"
   ],
   "note": "Conditions: what is left of the metadata is blocks that contribute well-formed items (SpecDisk.image_items), every item is left in its newest version or not at all, the chunk items are left, the index can answer the range queries (SpecDisk.orderly; see C17, C19 for what fails otherwise), and the conditions of C77. Example C78_ex: a leaf of the main tree overwritten with zeros."
  },
  {
   "property": "C79",
   "status": "proved",
   "theorems": [
    "C79_run_again"
   ],
   "note": "For every image, every metadata file (new, compatible or not) and every history of disturbed runs. Condition in the statement: no item carries the key of the metadata record (see C38). Killed = process killed; loss of cached writes is not modelled."
  },
  {
   "property": "C80",
   "status": "proved",
   "theorems": [
    "C80_no_false_alarm"
   ],
   "note": "For every run, however it ends. The converse (what fails is reported) is C49."
  },
  {
   "property": "C81",
   "status": "proved",
   "theorems": [
    "C81_mounted_rest"
   ],
   "note": "Conditions: the sound volume is one the mount command can show (SpecMount.mountable, as in C70); chunk items still map the addresses in use. Subvolumes no directory leads to any more are not shown (C70_orphans_refuted). C81_ex: a volume that lost a leaf."
  },
  {
   "property": "C82",
   "status": "proved",
   "theorems": [
    "C82_damaged_image_mounted"
   ],
   "note": "Conditions of C78 on the damaged image and of C81 on the sound volume. C82_ex: a leaf with directory entries and the inode of a file overwritten with zeros."
  },
  {
   "property": "C83",
   "status": "proved",
   "theorems": [
    "C83_mounted_index"
   ],
   "note": "No condition on the shape of the tree: loops, special files, duplicates. That an empty file (no extents) cannot be opened is what the code does; the statement says so. C83_ex, C84_ex: a volume with a fifo, an empty file, two entries of one name, an entry without inode item and a subvolume."
  },
  {
   "property": "C84",
   "status": "proved",
   "theorems": [
    "C84_recon_then_mount_any"
   ],
   "note": "Conditions of C69 on the image (orderly: no mixture of generations under one range, trees separated as C17 needs)."
  },
  {
   "property": "C85",
   "status": "partial",
   "theorems": [
    "C85_completes_partial",
    "C85_one_bad_item_stops",
    "C85_refuted"
   ],
   "note": "False of the code: an item too short for the fields it declares makes an accessor panic and the whole command stops (C85_refuted: a directory item one byte short, the next file is not restored). Proved: if everything that is reached is whole (SpecSurvive, in terms of item bytes) and iteration moves forward (see C20), the command always ends normally; and a run that ends normally and reports no failed directory has met whole directory items only, in every reachable directory."
  },
  {
   "property": "C86",
   "status": "partial",
   "theorems": [
    "C86_answered_partial",
    "C86_read_answered",
    "C86_refuted",
    "C86_size_refuted"
   ],
   "note": "False of the code: a short directory item stops the process as soon as the directory is used (C86_refuted), and so does reading an inline file whose inode claims a larger size, past the data (C86_size_refuted; go-fuse's data file slices without a check). Proved: reads of extent files are always answered, whatever the extents say; all other requests are answered, after any sequence of requests, if everything directory items lead to is whole (SpecSurvive.mount_whole, by item bytes). Iteration must end (C20)."
  },
  {
   "property": "C87",
   "status": "proved",
   "theorems": [
    "C87_mount_shows_what_recover_restores"
   ],
   "note": "recon, then recover into a new directory, and mount with the same index and device. Stated node against file (SpecAgree.same_as). Restricted to volumes whose subvolumes all have a directory entry (dir_shows of the whole tree): recover's extra subvol_N directories are not shown by mount. Example: C87_ex."
  },
  {
   "property": "C88",
   "status": "partial",
   "theorems": [
    "C88_adds_partial",
    "C88_two_images",
    "C88_starts_afresh_refuted"
   ],
   "note": "The flag is never read: every run appends. Proved for every option, device, failure: old entries stay unless the device has an item of the same owner, key and generation, and new entries come from the device; two sound images give exactly the union (C88_two_images). That a run without --append starts afresh is refuted. Example: C88_ex."
  },
  {
   "property": "C89",
   "status": "proved",
   "theorems": [
    "C89_unusable",
    "C89_touches",
    "C89_destination",
    "C89_status"
   ],
   "note": "C89_destination: a destination that cannot be made (its nearest existing ancestor is not a directory) ends recover with status 1, files unchanged; C89_status: status 0 only if the destination was found or made. Exit status 1, or a panic for a metadata record cut short or --block-size 0 (both conclusions are in C89_unusable: always a failure with the host unchanged, status 1 otherwise). Cobra's own flag parsing is not modelled. Metadata files, devices and the file system recover writes to are taken not to overlap. Examples: C89_ex_*."
  },
  {
   "property": "C90",
   "status": "proved",
   "theorems": [
    "C90_recon_recover",
    "C90_recon_mount",
    "C90_recon_ls"
   ],
   "note": "For sound images as in C69-C71 (orderly, chunks_are), no I/O error. mount also without the device argument. Example: C90_ex."
  },
  {
   "property": "C91",
   "status": "proved",
   "theorems": [
    "C91_identify_recon"
   ],
   "note": "Provided the leaves that carry the id are sound (image_items) and the metadata file is new. Example: C91_ex."
  },
  {
   "property": "C92",
   "status": "proved",
   "theorems": [
    "C92_recon_dump"
   ],
   "note": "The exact text up to tabwriter (listing in PropsWork2). Example: C92_ex."
  },
  {
   "property": "C93",
   "status": "proved",
   "theorems": [
    "C93_recover",
    "C93_mount",
    "C93_ls",
    "C93_ls_paths",
    "C93_written_recovered",
    "C93_written_mounted"
   ],
   "note": "SpecVolume.v says which items a tree has and when an image carries them; SpecMkfs.v is a writer for arbitrary trees (16 KiB blocks, one item per leaf). C93_written_* hold for every writable tree; PropsMkfsEx has a concrete one. Two names of a directory with equal hashes are excluded (btrfs stores them in one item, of which the program reads the first name only, see C30 and C71), as is file data that looks like a leaf of the file system itself: recon would read it as one. mount needs every file to have an extent (no_empty; C53)."
  },
  {
   "property": "C94",
   "status": "proved",
   "theorems": [
    "C94_metadata_kept",
    "C94_no_file",
    "C94_metadata_whole",
    "C94_metadata_attr",
    "C94_attributes",
    "C94_open_truncates",
    "C94_handle",
    "C94_root",
    "C94_root_lost",
    "C94_volume",
    "C94_refuted"
   ],
   "note": "Two findings: the protection of the metadata file rests on the kernel taking O_TRUNC out of the flags, Open itself passes it on and would empty the file (C94_open_truncates); and if the inode item of the top directory is lost the mount shows nothing at all, although recover brings the files back (C94_root_lost, C94_refuted). go-fuse (default node, read-only and loopback files) is modelled from its documented behaviour."
  },
  {
   "property": "C95",
   "status": "partial",
   "theorems": [
    "C95_seen",
    "C95_whole",
    "C95_orderly",
    "C95_answers",
    "C95_recover",
    "C95_mount",
    "C95_refuted",
    "C95_old_refuted"
   ],
   "note": "Partial because the claim is false of the code: C95_refuted, an image with a directory split over leaves of generations 7 and 8, from which recover restores only the first file, without a warning; C95_old_refuted, where an old copy of a leaf makes a deleted file come back instead of the present one. C95_seen, C95_answers: exactly what is seen, for all images. C95_recover, C95_mount: what is done with it. C95_whole, C95_orderly: nothing is hidden just when each object's items are of one generation, as C69 and C84 assume."
  },
  {
   "property": "C96",
   "status": "partial",
   "theorems": [
    "C96_queries",
    "C96_xattrs",
    "C96_all",
    "C96_refuted",
    "n_collide"
   ],
   "note": "C96_all is the full claim where no two names share a hash; C96_xattrs is exact for all images; C96_refuted: user.daa9d and user.8bt_x collide and the second is neither listed nor found (real CRC32C collision, n_collide)."
  },
  {
   "property": "C97",
   "status": "partial",
   "theorems": [
    "C95_recover",
    "C97_refuted",
    "n_collide"
   ],
   "note": "The code violates it: C97_refuted restores daa9d and silently leaves out 8bt_x. C95_recover is the exact theorem (trees of first entries) for all images."
  },
  {
   "property": "C98",
   "status": "proved",
   "theorems": [
    "C98_characters",
    "C98_printed",
    "C98_columns",
    "C98_ls",
    "C98_recon_ls",
    "C98_newline_refuted",
    "C98_escape_refuted"
   ],
   "note": "The names allowed are part of the statement; the refutations show what other names do. The text of a time is a parameter without tabs and newlines."
  },
  {
   "property": "C99",
   "status": "proved",
   "theorems": [
    "C99_report",
    "C99_machine",
    "C99_cut",
    "C99_identify",
    "C99_cut_refuted"
   ],
   "note": "%.6f is a parameter that prints something without tabs and newlines."
  },
  {
   "property": "C100",
   "status": "partial",
   "theorems": [
    "C100_ls",
    "C100_hidden_refuted"
   ],
   "note": "The code violates it: C100_hidden_refuted, an image with the entries y and x in leaves of generations 7 and 8; ls lists y only, ls /x finds x. C100_ls is exact for all images."
  },
  {
   "property": "C101",
   "status": "proved",
   "theorems": [
    "C101_time",
    "C101_calendar",
    "C101_one_calendar",
    "C101_field",
    "C101_alike",
    "C101_year_refuted",
    "C101_recon_ls"
   ],
   "note": "The time zone is a function from the time to the offset. The calendar is specified by its first day and the day after each date; the 400-year cycle is checked exhaustively and lifted by periodicity."
  },
  {
   "property": "C102",
   "status": "proved",
   "theorems": [
    "C102_wish",
    "C102_exact",
    "C102_monotone",
    "C102_report",
    "C102_all",
    "C102_tiny",
    "C102_negative_refuted"
   ],
   "note": "The conversion of values that an uint cannot hold is a parameter (Go leaves it open). Uses the axioms of Coq.Reals. C102_ex, C102_ex_all: the default fraction on 1 TiB, and the fraction 1 on the image of C72."
  },
  {
   "property": "C103",
   "status": "proved",
   "theorems": [
    "C103_fixed",
    "C103_order",
    "C103_entropy",
    "C103_printed",
    "C103_minus",
    "C103_report",
    "C103_sorted",
    "C103_true_order"
   ],
   "note": "Finding: an id of 16 equal bytes has the entropy 0, which is printed as -0.000000 (C103_minus). %.6f is modelled from strconv (exact decimal, half to even) in Fixed.v; math.Log2 is a parameter with an error bound; multiplication and addition are rounded separately, as on amd64."
  },
  {
   "property": "C104",
   "status": "partial",
   "theorems": [
    "C104_nothing_else_partial",
    "C104_full_directory_partial",
    "C104_replaces_partial",
    "C104_lost",
    "C104_refuted"
   ],
   "note": "The last clause is false of the code: the old entry is removed before the target is looked up (C104_lost, C104_refuted). Everything else is proved."
  },
  {
   "property": "C105",
   "status": "partial",
   "theorems": [
    "C105_machine_partial",
    "C105_verbose_partial",
    "C105_refuted",
    "C105_warning",
    "C105_physical_same",
    "C105_stripes"
   ],
   "note": "Partial because the first sentence is false with --verbose: the line of Verbosef goes to standard output (C105_refuted). C105_stripes: chunk items of one generation, as in C28; calls one after the other (concurrent first calls, see C29, may print the lines more than once)."
  },
  {
   "property": "C106",
   "status": "partial",
   "theorems": [
    "C106_same",
    "C106_told",
    "C106_complete",
    "C106_where",
    "C106_complete_refuted",
    "C106_subvolumes",
    "C106_text_partial",
    "C106_refuted"
   ],
   "note": "RecoverSays.v is recover.go with the calls of Verbosef; C106_same ties it to Recover.v. The full claim fails: two links can print the same line, and entries whose name has a slash or backslash are neither told of nor warned about. Examples in PropsSaysEx.v. The stripe: lines (C105) and the wording of warnings are left out."
  }
 ]
}