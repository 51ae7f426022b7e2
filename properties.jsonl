{"id": "C01", "title": "Index key round trip", "statement": "For every owner, filesystem key and generation, the 33-byte index key built from them decodes back to exactly that owner, type, object id, offset and generation, and two different tuples never produce the same key.", "quantifier": "all owners, object ids, offsets, generations (uint64) and all types (uint8)", "why_tests_cant": "2^264 tuples; tests sample a handful", "anchors": ["pkg/btrfs/index/key_format.go:newIndexKey", "pkg/btrfs/index/key_format.go:keyV2.Owner/Type/ObjectID/Offset/Generation/Key"]}
{"id": "C02", "title": "Index order is tuple order", "statement": "Byte-wise comparison of two index keys gives the same answer as comparing (owner, type, object id, offset, generation) lexicographically as unsigned integers; hence all generations of one FS key are adjacent and ascending in the store.", "quantifier": "all pairs of index keys", "why_tests_cant": "the order must hold for every pair incl. carries between fields", "anchors": ["pkg/btrfs/index/key_format.go:newIndexKey", "pkg/btrfs/index/index_store.go:metadataKey"]}
{"id": "C03", "title": "KeyCompare is a total order consistent with the index", "statement": "KeyCompare is reflexive-zero, antisymmetric, transitive, zero only on equal keys, and its sign is the order in which the index stores the keys of one owner. Documented: the result is exactly -1, 0 or +1.", "quantifier": "all triples of FS keys", "why_tests_cant": "order laws quantify over all triples", "anchors": ["pkg/btrfs/btrfs.go:KeyCompare"]}
{"id": "C04", "title": "KF/KL bracket exactly the requested items", "statement": "For every type t and object id i, a key lies between KF(t,i) and KL(t,i) (index order, one owner) iff its type is t and its object id is i; with no argument the bracket is everything up to (255, LastFreeObjectID, max); more than three arguments are rejected.", "quantifier": "all types, object ids and keys", "why_tests_cant": "boundary behaviour at 0 and 2^64-1 for every key", "anchors": ["pkg/btrfs/index/index_store.go:KF", "pkg/btrfs/index/index_store.go:KL", "pkg/btrfs/index/index_store.go:keyFirst"]}
{"id": "C05", "title": "Little-endian integer decoding", "statement": "SliceUint16LE/32LE/64LE and SliceKey/SliceUUID return the unique value whose little-endian encoding starts at the given position, for every byte content, and abort exactly when the backing storage is too short.", "quantifier": "all byte slices of every length and capacity", "why_tests_cant": "all contents and lengths", "anchors": ["pkg/btrfs/slice.go:SliceUint16LE", "pkg/btrfs/slice.go:SliceUint32LE", "pkg/btrfs/slice.go:SliceUint64LE", "pkg/btrfs/slice.go:SliceUUID", "pkg/btrfs/slice.go:SliceKey", "pkg/btrfs/slice.go:SliceTimeLE"]}
{"id": "C06", "title": "On-disk structure layouts", "statement": "For every btrfs structure (header, item, dev extent, dev item, stripe, chunk, inode item, inode ref, dir item, block group, file extent, root item, root ref, extent item) every accessor applied to the packed little-endian on-disk structure returns the field of that name, whatever the values of all fields and whatever follows the structure.", "quantifier": "all field values of every structure and all trailing bytes", "why_tests_cant": "offset errors only show for particular values; all fields at once", "anchors": ["pkg/btrfs/btrfs.go:DevExtent..ExtentItem accessors", "pkg/btrfs/leaf.go:Header", "pkg/btrfs/leaf.go:Item"]}
{"id": "C07", "title": "Truncated structures are never over-read", "statement": "Reading a field of a structure that is too short must abort (panic) rather than return bytes that are not part of the structure.", "quantifier": "all structures, all truncation lengths, all capacities", "why_tests_cant": "depends on slice capacity, every length", "anchors": ["pkg/btrfs/slice.go:SliceUint64LE", "pkg/btrfs/btrfs.go:accessors"]}
{"id": "C08", "title": "Name accessors", "statement": "The Name of a dir item, inode ref or root ref is the stored name for names of at most 255 bytes, is never longer than 255 bytes, and is always a contiguous part of the record.", "quantifier": "all records, all name lengths", "why_tests_cant": "all 65536 length values and all contents", "anchors": ["pkg/btrfs/btrfs.go:DirItem.Name", "pkg/btrfs/btrfs.go:InodeRefItem.Name", "pkg/btrfs/btrfs.go:RootRef.Name"]}
{"id": "C09", "title": "Extended attribute values", "statement": "The data of an xattr dir item is exactly the stored value, for every name and value that fit in an item.", "quantifier": "all names and values", "why_tests_cant": "uint16 arithmetic on lengths", "anchors": ["pkg/btrfs/btrfs.go:DirItem.Data"]}
{"id": "C10", "title": "Inline file data", "statement": "The data of an inline file extent is exactly the stored inline bytes.", "quantifier": "all inline extents (all lengths, compressed or not)", "why_tests_cant": "lengths and truncation for every size", "anchors": ["pkg/btrfs/btrfs.go:FileExtentItem.Data"]}
{"id": "C11", "title": "Index metadata record round trip", "statement": "The metadata record written when an index is created reports back the current format version, the block size (mod 2^32), the filesystem id and the generation it was created with.", "quantifier": "all options", "why_tests_cant": "all values", "anchors": ["pkg/btrfs/index/index_store.go:newIndexMetadata", "pkg/btrfs/index/index_store.go:indexMetadata"]}
{"id": "C12", "title": "V1 to V2 key upgrade is lossless", "statement": "Converting a V1 index key to V2 preserves owner, type, object id, offset and generation, and is injective.", "quantifier": "all V1 keys", "why_tests_cant": "all byte strings", "anchors": ["pkg/btrfs/index/key_format.go:NewIndexKeyFromV1", "pkg/btrfs/index/key_format.go:keyV1"]}
{"id": "C13", "title": "Leaf parsing is the inverse of leaf writing", "statement": "For a well-formed leaf block holding any list of items, the number of items, and for each i the key, the item header and the data are exactly those written.", "quantifier": "all lists of items that fit in a block, all block sizes", "why_tests_cant": "arbitrary item counts, sizes and positions", "anchors": ["pkg/btrfs/leaf.go:Leaf.Len", "pkg/btrfs/leaf.go:Leaf.Item", "pkg/btrfs/leaf.go:Leaf.Key", "pkg/btrfs/leaf.go:Leaf.Data", "pkg/btrfs/leaf.go:Leaf.Items"]}
{"id": "C14", "title": "Corrupt leaf headers do not crash parsing", "statement": "For any block content, reading all items the leaf claims to have (count clamped) never aborts.", "quantifier": "all blocks of any content", "why_tests_cant": "arbitrary corruption of 16 KiB", "anchors": ["pkg/btrfs/leaf.go:Leaf.Len", "pkg/btrfs/leaf.go:Leaf.Item", "pkg/btrfs/leaf.go:Leaf.Data"]}
{"id": "C15", "title": "Leaf data stays inside the block", "statement": "Whatever offset and size a leaf item claims, the data returned for it is a contiguous part of the block, and is at most the claimed size.", "quantifier": "all blocks, all items", "why_tests_cant": "arbitrary corruption, 32-bit wrap-around", "anchors": ["pkg/btrfs/leaf.go:Leaf.Data"]}
{"id": "C16", "title": "Inserted items can be read back", "statement": "After any history of inserts of items other than one that uses the index's own reserved metadata key, a lookup of (owner, key) at the stored generation returns the item header and data inserted last for that (owner, key, generation), and inserting one item never changes the lookup of another (owner, key). (An item with the reserved key overwrites the metadata record.)", "quantifier": "all histories of inserts, all lookups", "why_tests_cant": "unbounded histories", "anchors": ["pkg/btrfs/index/index_store.go:Index.InsertItem", "pkg/btrfs/index/index_store.go:Index.FindItem"]}
{"id": "C17", "title": "Lookup returns the right generation", "statement": "FindItem returns the item at the latest generation smaller than or equal to the index generation, and the earliest generation if all are newer; with the default (maximum) generation it is the latest version ever inserted.", "quantifier": "all index contents, all generations", "why_tests_cant": "every set of generations around every search point", "anchors": ["pkg/btrfs/index/index_store.go:Index.FindItem", "pkg/btrfs/index/index_store.go:find"]}
{"id": "C18", "title": "Lookups never run off the end of the index", "statement": "A lookup of any owner and key in an opened index returns an item or nothing, and never aborts.", "quantifier": "all owners, keys, generations, index contents", "why_tests_cant": "extreme keys beyond the sentinel", "anchors": ["pkg/btrfs/index/index_store.go:find", "pkg/btrfs/index/index_store.go:metadataKey"]}
{"id": "C19", "title": "Range enumerates exactly the matching items", "statement": "Iterating a range (RangeAll, DirItems, XAttrItems, FileExtentItems, Chunks, DevItems) yields every FS key of that owner, type and object id once, in ascending offset order, each with its version current at the index generation, and nothing else.", "quantifier": "all index contents, owners, types, ids, generations", "why_tests_cant": "quantifies over all stores and histories of generations", "anchors": ["pkg/btrfs/index/index_store.go:Range.Next", "pkg/btrfs/index/index_store.go:Index.Range", "pkg/btrfs/index/index_store.go:lowerBound", "pkg/btrfs/index/index_store.go:findNext"]}
{"id": "C20", "title": "Range iteration terminates", "statement": "Iterating any range of any index ends after finitely many steps.", "quantifier": "all index contents and ranges", "why_tests_cant": "non-termination cannot be shown by a finite test", "anchors": ["pkg/btrfs/index/index_store.go:Range.HasNext", "pkg/btrfs/index/index_store.go:Range.Next", "pkg/btrfs/index/index_store.go:findNext"]}
{"id": "C21", "title": "Range honours its bounds", "statement": "Range(owner, first, last) yields only items with first <= key < last.", "quantifier": "all bounds and index contents", "why_tests_cant": "all bounds", "anchors": ["pkg/btrfs/index/index_store.go:Index.Range", "pkg/btrfs/index/index_store.go:Range.HasNext"]}
{"id": "C22", "title": "Subvolume enumeration", "statement": "Subvolumes() yields every root item of the root tree with an id in the free object id range, whichever ids exist.", "quantifier": "all sets of subvolumes", "why_tests_cant": "all sets of ids", "anchors": ["pkg/btrfs/index/index_store.go:Index.Subvolumes"]}
{"id": "C23", "title": "FullRange enumerates the whole store", "statement": "Iterating FullRange yields every stored entry exactly once in key order, and stops.", "quantifier": "all index contents", "why_tests_cant": "all stores", "anchors": ["pkg/btrfs/index/index_store.go:Index.FullRange", "pkg/btrfs/index/index_store.go:FullRange.Next"]}
{"id": "C24", "title": "Crash durability of inserts", "statement": "If the process dies at any point while inserting, the reopened index holds exactly the first n inserts for some n, with at most 10000 of the acknowledged inserts lost; after Commit or Close nothing is lost.", "quantifier": "all histories, all crash points", "why_tests_cant": "every crash point of an unbounded history", "anchors": ["pkg/btrfs/index/index_store.go:Index.InsertItem", "pkg/btrfs/index/index_store.go:Index.Commit", "pkg/btrfs/index/index_store.go:Index.ensureTx", "pkg/btrfs/index/index_store.go:Index.Close"]}
{"id": "C25", "title": "Opening an index checks compatibility", "statement": "Open succeeds on an existing index iff its version is current (or older when old versions are allowed) and, for read-write use, block size and filesystem id match; it never modifies the entries of an existing index; on a new file it creates a record matching the options; read-only open of a file without index fails.", "quantifier": "all well-formed stored metadata records, all options", "why_tests_cant": "decision table over all values", "anchors": ["pkg/btrfs/index/index_store.go:openIndex", "pkg/btrfs/index/index_store.go:checkUpdateMetadata"]}
{"id": "C26", "title": "A read-only index is never modified", "statement": "No sequence of operations on an index opened read-only changes the stored entries.", "quantifier": "all operation sequences", "why_tests_cant": "unbounded histories", "anchors": ["pkg/btrfs/index/index_store.go:ensureTx", "pkg/btrfs/index/index_store.go:InsertItem", "pkg/btrfs/index/index_store.go:Commit", "pkg/btrfs/index/index_store.go:Close"]}
{"id": "C27", "title": "Queries work after any successful operation", "statement": "After Open succeeded and any sequence of inserts and commits, lookups still work (do not abort) and see all inserts.", "quantifier": "all operation sequences", "why_tests_cant": "the state after the 10001st insert or an explicit commit", "anchors": ["pkg/btrfs/index/index_store.go:Index.Commit", "pkg/btrfs/index/index_store.go:Index.FindItem"]}
{"id": "C28", "title": "Logical to physical mapping", "statement": "For a logical address inside a chunk known to the index, Physical returns the device of the chunk's first stripe and the stripe's offset plus the distance into the chunk; the answer is the same on every call; an address below all chunks or with no chunk present is not mapped to garbage nor aborts.", "quantifier": "all chunk sets, all addresses", "why_tests_cant": "all addresses and chunk layouts", "anchors": ["pkg/btrfs/index/index_store.go:Index.Physical", "pkg/btrfs/index/index_store.go:Index.Chunks"]}
{"id": "C29", "title": "Physical under concurrency", "statement": "When several FUSE requests call Physical concurrently, each gets the answer a single call would get.", "quantifier": "all interleavings of concurrent calls", "why_tests_cant": "all schedules", "anchors": ["pkg/btrfs/index/index_store.go:Index.Physical", "internal/rescuefs/files.go:newExtentFile", "cmd/mount.go:doMountRescueFS"]}
{"id": "C30", "title": "Path lookup", "statement": "FindDirItemForPath returns a dir item iff following the path component by component from the root directory, crossing into subvolumes, leads to one, and returns the item of the last component.", "quantifier": "all directory trees, all paths", "why_tests_cant": "all trees and paths incl. name hash collisions", "anchors": ["pkg/btrfs/index/index_store.go:Index.FindDirItemForPath"]}
{"id": "C31", "title": "Name hash is CRC32C with the btrfs seed", "statement": "NameHash equals the bit-serial CRC-32C of the name with register initialised to 0xFFFFFFFE and no final inversion, for every name; it fits 32 bits.", "quantifier": "all byte strings", "why_tests_cant": "all strings", "anchors": ["pkg/btrfs/index/index_store.go:NameHash"]}
{"id": "C32", "title": "UUID text round trip", "statement": "Parsing the textual form of a UUID gives the UUID back; dashes anywhere and letter case are ignored; a failed parse leaves the value unchanged; a string parses iff it has exactly 32 hex digits besides dashes.", "quantifier": "all UUIDs, all strings", "why_tests_cant": "all strings", "anchors": ["pkg/uuid/uuid.go:UUID.String", "pkg/uuid/uuid.go:UUID.Set", "pkg/uuid/uuid.go:New"]}
{"id": "C33", "title": "Printed keys are unambiguous", "statement": "ObjectIDString, KeyTypeString and Key.String never map two different ids, types or keys to the same text; reserved ids and item types are printed under the names of the btrfs format (the UUID tree as UUID, the free space tree as FREES_SPACE_TREE, QGROUP_LIMIT as its number), everything else as its decimal value.", "quantifier": "all ids, types, keys", "why_tests_cant": "2^136 keys", "anchors": ["pkg/btrfs/to_string.go:ObjectIDString", "pkg/btrfs/to_string.go:KeyTypeString", "pkg/btrfs/to_string.go:Key.String"]}
{"id": "C34", "title": "ParseBuffer reads sequentially", "statement": "A sequence of Next* calls returns consecutive little-endian values, offset + unread = length at all times, Rewind restarts, and reading more bytes than the buffer holds aborts without moving.", "quantifier": "all buffers, all call sequences", "why_tests_cant": "unbounded call sequences, slice capacity", "anchors": ["pkg/btrfs/parse_buffer.go:ParseBuffer"]}
{"id": "C35", "title": "ReadBlockAt reads a full block or fails", "statement": "ReadBlockAt returns nil only if the whole block was filled with the bytes at that offset, and never reports EOF if the full block was read, for every reader obeying the io.ReaderAt contract.", "quantifier": "all readers obeying the contract, all offsets and sizes", "why_tests_cant": "all reader behaviours", "anchors": ["pkg/ioutil/ioutil.go:ReadBlockAt"]}
{"id": "C36", "title": "Device size check", "statement": "CheckDeviceSize succeeds iff the device is at least one block and at least 64 MiB + 100 blocks.", "quantifier": "all device sizes and block sizes", "why_tests_cant": "64-bit overflow", "anchors": ["pkg/btrfs/util.go:CheckDeviceSize"]}
{"id": "C37", "title": "Recon indexes exactly the matching leaf items", "statement": "After a scan, the index contains (besides the metadata record and what it held before) exactly the items of the leaf blocks after the first superblock whose filesystem id matches, each under its owner, key and generation; nothing from other blocks.", "quantifier": "all images, block sizes and ids", "why_tests_cant": "all images", "anchors": ["cmd/recon.go:doScanFS", "pkg/btrfs/index/index_store.go:InsertItem"]}
{"id": "C38", "title": "Recon can be repeated", "statement": "Scanning the same image again into the same metadata file leaves the index unchanged.", "quantifier": "all images and index contents", "why_tests_cant": "all images", "anchors": ["cmd/recon.go:doScanFS"]}
{"id": "C39", "title": "Recon survives damaged images", "statement": "A scan of any image that passes the size check runs to the end without aborting.", "quantifier": "all images", "why_tests_cant": "arbitrary damage", "anchors": ["cmd/recon.go:doScanFS", "pkg/btrfs/leaf.go:Leaf"]}
{"id": "C40", "title": "Identify counts", "statement": "For every sequence of sampled blocks, the count reported for a filesystem id is the number of sampled leaf blocks carrying it; all-zero and all-ones ids and non-leaf blocks are never reported.", "quantifier": "all block sequences", "why_tests_cant": "unbounded sequences", "anchors": ["internal/identify/collector.go:CollectBlock", "internal/identify/collector.go:Entries"]}
{"id": "C41", "title": "Identify report order", "statement": "The report lists each id once, ids found fewer than min-occurrence times are omitted, the order is by count, then entropy, then id, all descending, independent of map iteration order.", "quantifier": "all histograms and map iteration orders", "why_tests_cant": "all iteration orders", "anchors": ["internal/identify/collector.go:Entries", "internal/identify/collector.go:fsEntries.Less"]}
{"id": "C42", "title": "Block size guess", "statement": "If all sampled leaves of a filesystem have their first item's data ending within the last 4 KiB page of a block of size B, the guessed block size is B.", "quantifier": "all sample sequences", "why_tests_cant": "averages over unbounded sequences", "anchors": ["internal/identify/collector.go:Entries"]}
{"id": "C43", "title": "Sample offsets", "statement": "For every device passing the size check, the sample list has exactly the requested length, is strictly ascending, and every sample is a block that lies inside the device; generation terminates.", "quantifier": "all device sizes, block sizes, sample counts and random streams", "why_tests_cant": "random streams, all sizes", "anchors": ["internal/identify/identify.go:MakeSampleOffsets"]}
{"id": "C44", "title": "Shannon entropy", "statement": "The (exact) entropy of a byte string is between 0 and log2 of its length, 0 iff all bytes are equal, and does not depend on byte order.", "quantifier": "all byte strings", "why_tests_cant": "all strings", "anchors": ["pkg/coding/entropy.go:ShannonEntropy"]}
{"id": "C45", "title": "Recover stays inside the destination (lexically)", "statement": "Every path recover creates, writes, truncates, removes or links is the destination directory or a descendant spelled without '.', '..' or separators inside a component, whatever names the damaged metadata contains.", "quantifier": "all metadata contents", "why_tests_cant": "adversarial names", "anchors": ["cmd/recover.go:recoverDir", "cmd/recover.go:doRecoverFiles"]}
{"id": "C46", "title": "Recover stays inside the destination (physically)", "statement": "No file outside the destination directory is created or modified by recover, even if the metadata contains symlinks.", "quantifier": "all metadata contents", "why_tests_cant": "adversarial metadata combining symlinks and files", "anchors": ["cmd/recover.go:recoverSymlink", "cmd/recover.go:recoverFile"]}
{"id": "C47", "title": "No clobber", "statement": "Without --clobber no file existing before recover is modified or removed.", "quantifier": "all metadata, all pre-existing trees", "why_tests_cant": "all trees", "anchors": ["cmd/recover.go:recoverFile", "cmd/recover.go:recoverSymlink"]}
{"id": "C48", "title": "Recovered file content", "statement": "For a file with uncompressed inline, regular and hole extents, the recovered file has the inode's size and every byte equals the inline byte, the device byte at the mapped position, or zero in holes.", "quantifier": "all extent lists, device contents, sizes", "why_tests_cant": "all layouts, sizes beyond the 1 MiB copy chunk", "anchors": ["cmd/recover.go:recoverFile"]}
{"id": "C49", "title": "Recover reports failures", "statement": "If any device read or destination write needed for a file fails, recovering that file reports an error.", "quantifier": "all fault patterns", "why_tests_cant": "all fault positions", "anchors": ["cmd/recover.go:recoverFile"]}
{"id": "C50", "title": "Recover visits every directory once and terminates", "statement": "Recovery terminates on any directory graph (including cycles), processes every directory reachable from the root through dir items, and processes none twice.", "quantifier": "all directory graphs", "why_tests_cant": "cycles and unbounded depth", "anchors": ["cmd/recover.go:recoverDir", "cmd/recover.go:doRecoverFiles"]}
{"id": "C51", "title": "Recover after a crash", "statement": "If recover is killed at any point and run again, all files end up complete.", "quantifier": "all crash points", "why_tests_cant": "all crash points", "anchors": ["cmd/recover.go:recoverFile"]}
{"id": "C52", "title": "Recovered symlinks", "statement": "A recovered symlink has exactly the stored target; existing entries are replaced only with --clobber.", "quantifier": "all symlinks", "why_tests_cant": "all targets", "anchors": ["cmd/recover.go:recoverSymlink"]}
{"id": "C53", "title": "FUSE file reads", "statement": "Reading n bytes at offset o from a mounted file returns exactly the file's bytes [o, min(o+n, end of extents)).", "quantifier": "all extent maps, offsets, sizes", "why_tests_cant": "all overlaps between read ranges and extents", "anchors": ["internal/rescuefs/files.go:extentFile.Read"]}
{"id": "C54", "title": "FUSE directory view", "statement": "Listing a mounted directory gives one entry per distinct name among its dir items, and looking up a name succeeds iff it is listed, leading to the inode (or subvolume root) of that item; results do not change over time.", "quantifier": "all directories, all request sequences", "why_tests_cant": "unbounded request sequences", "anchors": ["internal/rescuefs/nodefs.go:ensureDirItems", "internal/rescuefs/nodefs.go:Lookup", "internal/rescuefs/nodefs.go:OpenDir"]}
{"id": "C55", "title": "FUSE attributes", "statement": "GetAttr reports the size, times, mode, link count and owner of the inode item and the low 32 bits of its rdev (the width of the FUSE field), and repeated calls agree; ENOATTR iff no inode item.", "quantifier": "all inode items", "why_tests_cant": "all field values", "anchors": ["internal/rescuefs/nodefs.go:GetAttr", "internal/rescuefs/files.go:GetAttr"]}
{"id": "C56", "title": "FUSE xattrs", "statement": "A name listed by ListXAttr can be fetched with GetXAttr and yields the stored value of the first such item; others give ENOATTR.", "quantifier": "all xattr sets", "why_tests_cant": "all sets", "anchors": ["internal/rescuefs/nodefs.go:GetXAttr", "internal/rescuefs/nodefs.go:ListXAttr"]}
{"id": "C57", "title": "Mount without device", "statement": "Mounting without a device file lets files be read as zeroes for non-inline data.", "quantifier": "all files and reads", "why_tests_cant": "typed-nil interface behaviour", "anchors": ["cmd/mount.go:doMountRescueFS", "internal/rescuefs/files.go:extentFile.Read"]}
{"id": "C58", "title": "Concurrent directory requests", "statement": "Concurrent Lookup/OpenDir requests on one directory all see the complete directory.", "quantifier": "all interleavings", "why_tests_cant": "all schedules", "anchors": ["internal/rescuefs/nodefs.go:ensureDirItems"]}
{"id": "C59", "title": "ls mode and type strings", "statement": "The 9-character mode string shows exactly the permission bits; distinct permissions give distinct strings; the type letter is determined by the dir item type.", "quantifier": "all 2^32 modes", "why_tests_cant": "all modes", "anchors": ["cmd/ls.go:inodeModeString", "cmd/ls.go:dirItemTypeString"]}
{"id": "C60", "title": "ls order", "statement": "A directory listing is a permutation of the dir items with non-directories first and names ascending within each group; the comparison is a strict weak order.", "quantifier": "all directories", "why_tests_cant": "all lists", "anchors": ["cmd/ls.go:dirItemSlice.Less", "cmd/ls.go:listDirectory"]}
{"id": "C61", "title": "ls --recursive terminates", "statement": "Recursive listing of any index terminates and lists each directory's own tree.", "quantifier": "all directory graphs", "why_tests_cant": "non-termination", "anchors": ["cmd/ls.go:listDirectory", "cmd/ls.go:doListFiles"]}
{"id": "C62", "title": "Binary search", "statement": "The search used by Physical returns the smallest index satisfying a monotone predicate and probes only valid indices.", "quantifier": "all lengths and monotone predicates", "why_tests_cant": "all lengths", "anchors": ["pkg/btrfs/index/index_store.go:Physical (sort.Search)"]}
{"id": "C63", "title": "Commands never write to the image", "statement": "identify, recon, recover and mount never modify the device/image file.", "quantifier": "all images and options", "why_tests_cant": "all runs", "anchors": ["cmd/recon.go:doScanFS", "cmd/recover.go:doRecoverFiles", "internal/identify/identify.go:IdentifyFS"]}
{"id": "C64", "title": "Mounted symlinks", "statement": "Readlink on a mounted symbolic link returns exactly the target bytes stored in the inline extent of its inode; if there is no such extent it fails with ENODATA and returns nothing.", "quantifier": "all inodes and indexes", "why_tests_cant": "all targets and stored extents", "anchors": ["internal/rescuefs/nodefs.go:Readlink"]}
{"id": "C65", "title": "ls arguments", "statement": "ls shows the line of each argument that is a file, in order, then the listing of each argument that is a directory, in order, warns about exactly the arguments that do not exist, and lists the root directory without arguments.", "quantifier": "all argument lists and indexes", "why_tests_cant": "all argument lists and trees", "anchors": ["cmd/ls.go:doListFiles", "cmd/ls.go:listDirectory"]}
{"id": "C66", "title": "dump-index", "statement": "dump-index prints each stored item exactly once, in index order, under a heading with its owner, and nothing else.", "quantifier": "all indexes", "why_tests_cant": "all index contents", "anchors": ["cmd/dump_index.go:doDumpIndex", "pkg/btrfs/index/index_store.go:FullRange"]}
{"id": "C67", "title": "Whole-volume recovery", "statement": "If the index and the device describe a tree of directories, files, links and subvolumes, recover restores exactly this tree below the destination, with nothing missing, nothing extra and no warning, and nothing outside changes; an interrupted run leaves a part of this tree.", "quantifier": "all trees, extents, subvolume nestings, destinations, existing partial results and crash points", "why_tests_cant": "composition of traversal, paths and content over all trees", "anchors": ["cmd/recover.go:doRecoverFiles", "cmd/recover.go:recoverDir", "cmd/recover.go:recoverFile", "cmd/recover.go:recoverSymlink"]}
{"id": "C68", "title": "Recon with failing reads and writes", "statement": "On a device some of whose blocks cannot be read, recon keeps the items of the blocks that can be read; whatever reads and commits fail, the metadata file afterwards holds what it held plus the items up to some point of the scan in order, and success is reported only if every block was read, every item was decoded and all of them are in the file.", "quantifier": "all devices (any pattern of read errors, any content), all patterns of failing commits, all previous metadata files", "why_tests_cant": "fault patterns and device contents are unbounded; a test can inject only particular faults", "anchors": ["cmd/recon.go:doScanFS", "pkg/ioutil/ioutil.go:ReadBlockAt", "pkg/btrfs/index/index_store.go:InsertItem", "pkg/btrfs/index/index_store.go:Commit"]}
{"id": "C69", "title": "Recon, then recover", "statement": "Take an image whose blocks carry the metadata items of a volume, where the newest items of every directory and file, the chunk items and the subvolume root items are each of one generation, the end of each such group is recognisable in the index (see C22), chunks do not overlap and every extent lies in a chunk. Then recon into a new metadata file succeeds, recover can open this file, and recover restores below the destination exactly the tree that the newest items of the image describe - names, directories, file bytes including holes and disk extents, link targets, nested and orphaned subvolumes - with no warning, and changes nothing outside.", "quantifier": "all images (any number, order and duplication of leaf blocks, any interleaved foreign blocks, old versions of items), block sizes, trees, destinations with a partial result", "why_tests_cant": "composition of leaf decoding, key order, index queries, address translation, traversal and file writing over all images and trees", "anchors": ["cmd/recon.go:doScanFS", "cmd/recover.go:doRecoverFiles", "pkg/btrfs/index/index_store.go:InsertItem", "pkg/btrfs/index/index_store.go:Range", "pkg/btrfs/index/index_store.go:Physical", "pkg/btrfs/index/index_store.go:OpenReadOnly"]}
{"id": "C70", "title": "Mounted tree", "statement": "Let the newest items of an image describe a tree below the top directory of the main subvolume, nested subvolumes included, in which every entry is a directory, file or link with an inode item, links are inline and every file has one inline extent or extents without gaps up to its size. Mount the index that recon makes of the image with the image as device. Then, whatever sequence of lookup, list, attribute and forget requests came before, every node the kernel knows stands for the part of this tree at its path and answers accordingly: directories list exactly their entries with the right kind, looking up a name succeeds iff it is one of them, every path of the tree can be reached, links give their target, attributes are those of the inode item, and a reader that reads on from where each read ended until the reported size gets exactly the content that recover restores.", "quantifier": "all trees, images (order, duplication and age of blocks), request sequences, nodes, map iteration orders, read buffer sizes", "why_tests_cant": "unbounded trees and request sequences over shared caches", "anchors": ["internal/rescuefs/nodefs.go:OnMount", "internal/rescuefs/nodefs.go:Lookup", "internal/rescuefs/nodefs.go:OpenDir", "internal/rescuefs/nodefs.go:Readlink", "internal/rescuefs/files.go:extentFile.Read", "cmd/mount.go:doMountRescueFS"]}
{"id": "C71", "title": "Recon, then ls", "statement": "Take an image as in C69 whose main tree has distinct names in each directory, no entry that leads to a subvolume, one name per directory item, and no entries below anything that is not a directory. After recon into a new metadata file, ls from this file succeeds and prints for its arguments, each taken as a path from the root of the main tree: a warning for every path that leads nowhere; one line for every path that leads to something other than a directory, in the order given; then for every directory its lines sorted with directories last and by name and, if asked for, the same below each subdirectory under its name. Every line shows the attributes of the newest inode item on the image, or question marks. There is one text only that fits this description. The recursion ends if the directories form a tree.", "quantifier": "all images (any number, order and duplication of leaf blocks, old versions of items), directory trees, argument lists, options, sort implementations", "why_tests_cant": "composition of leaf decoding, key order, hashed and linear name lookup, sorting and recursion over all images, trees and paths", "anchors": ["cmd/ls.go:doListFiles", "cmd/ls.go:listDirectory", "cmd/recon.go:doScanFS", "pkg/btrfs/index/index_store.go:FindDirItemForPath", "pkg/btrfs/index/index_store.go:DirItems"]}
{"id": "C72", "title": "Identify, from image to report", "statement": "Take an image whose size leaves room for 200 blocks behind the second superblock position (and 300 behind the third, if the image reaches it) and options that ask for at least the fixed samples and at most as many as there are positions. Then identify ends with a report, provided the random source draws every block at some time, and for the samples it took - as many as the options demand, all distinct and inside the image, the fixed positions near the superblock copies among them - the report has exactly one row for each id other than all zeros and all ones that at least min-occurrence sampled leaf blocks carry, with exactly this count, and the rows are in order of count, entropy and id. In particular an id with min-occurrence leaves at the fixed positions is reported whatever the random samples are, and no id is reported that is not on the image.", "quantifier": "all images, block sizes from 126 bytes, options, random sources, map iteration orders", "why_tests_cant": "all images and random choices", "anchors": ["internal/identify/identify.go:IdentifyFS", "internal/identify/identify.go:MakeSampleOffsets", "internal/identify/collector.go:CollectBlock", "internal/identify/collector.go:Entries"]}
{"id": "C73", "title": "Recover is idempotent", "statement": "Running recover again on a destination that already holds the complete tree, with or without --clobber, succeeds without warnings and leaves every path of the file system as it was; without --clobber even a run that is killed or whose opens and writes fail changes nothing.", "quantifier": "all volumes that form a tree, all destinations holding it, both clobber settings, all crash points", "why_tests_cant": "all volumes and crash points", "anchors": ["cmd/recover.go:recoverFile", "cmd/recover.go:recoverSymlink", "cmd/recover.go:doRecoverFiles"]}
{"id": "C74", "title": "Device errors through the mount", "statement": "If reads of the device fail, a read from a mounted file either answers EIO without data, and only if a device read did fail, or gives exactly the answer it gives from a device without errors.", "quantifier": "all extent maps, reads and patterns of device errors", "why_tests_cant": "all error patterns", "anchors": ["internal/rescuefs/files.go:extentFile.Read"]}
{"id": "C75", "title": "Recover from a damaged device", "statement": "If the metadata describes a tree and some positions of the device cannot be read, recover still runs to the end: every directory, and every file and link whose data is on no unreadable position (at any depth, in any subvolume, also behind damaged files), is restored exactly; of the rest nothing has a wrong kind or name; nothing outside the destination changes.", "quantifier": "all volumes, sets of unreadable positions and ways reads fail there, destinations holding any part of the tree", "why_tests_cant": "all damage patterns times all trees", "anchors": ["cmd/recover.go:doRecoverFiles", "cmd/recover.go:recoverDir", "cmd/recover.go:recoverFile", "cmd/recover.go:recoverSymlink"]}
{"id": "C76", "title": "Recover from an incomplete index", "statement": "If some items are missing from the index (inode items, extents, link targets, directory entries, root entries) and some positions of the device cannot be read, recover still runs to the end, and every directory still listed, and every file and link of which nothing is missing, is restored exactly, also where it comes after incomplete ones; nothing has a wrong name or kind; nothing outside the destination changes.", "quantifier": "all indexes that describe a tree in which any files and links are incomplete, all unreadable positions, destinations holding any part of the tree", "why_tests_cant": "all combinations of missing items times all trees", "anchors": ["cmd/recover.go:doRecoverFiles", "cmd/recover.go:recoverDir", "cmd/recover.go:recoverFile", "cmd/recover.go:recoverSymlink", "pkg/btrfs/index/index_store.go:Physical"]}
{"id": "C77", "title": "Recover when items of a sound volume are missing", "statement": "Take any volume whose index describes a tree, remove any items from the index (directory entries, inode items, extents, link targets, root items) and spoil any data on the device. Recover of what is left into an empty directory runs to the end. Every directory, file and link that can still be reached through the remaining entries and of which nothing is missing or spoilt is restored at its path in the original tree, exactly. Every subvolume to which no remaining directory leads is restored below subvol_N. Nothing else appears: every path created is a path of the original tree, or of a subvolume below subvol_N, with the same kind. Nothing outside the destination changes.", "quantifier": "all volumes (subvolumes nested in others have larger ids, no top-level name of the form subvol_N of a subvolume), all sets of missing items that leave the addresses in use mapped, all spoilt or unreadable positions of the device, all empty destinations", "why_tests_cant": "all sets of missing items times all trees and damage patterns", "anchors": ["cmd/recover.go:doRecoverFiles", "cmd/recover.go:recoverDir", "cmd/recover.go:recoverFile", "cmd/recover.go:recoverSymlink"]}
{"id": "C78", "title": "Recon and recover on a damaged image", "statement": "Take any volume that describes a tree and any image of the same size whose readable metadata blocks hold some of its items, each in its newest version, the chunk items among them, while any other bytes are overwritten. Recon of that image into a new metadata file succeeds, and recover from it into an empty directory runs to the end: what can still be reached and is untouched is restored exactly and in its place, orphaned subvolumes below subvol_N, nothing is made up, and nothing outside the destination changes.", "quantifier": "all volumes, all damaged images on which the remaining metadata blocks are well formed and every item is left in its newest version or not at all, all empty destinations", "why_tests_cant": "all damage patterns of all images", "anchors": ["cmd/recon.go:doScanFS", "pkg/btrfs/index/index_store.go:InsertItem", "cmd/recover.go:doRecoverFiles", "cmd/recover.go:recoverDir"]}
{"id": "C79", "title": "Recon can be restarted after failures", "statement": "However often recon of an image into a metadata file fails or is killed (reads of the image or commits to the metadata file fail at any point, in any number of runs), a later undisturbed run ends in the same way and leaves exactly the same metadata file as an undisturbed run at the very beginning.", "quantifier": "all images that pass the size check and have no item under the reserved key, all metadata files, all sequences of failed or killed runs and all their points of failure", "why_tests_cant": "all crash points and fault patterns of all histories", "anchors": ["cmd/recon.go:doScanFS", "pkg/btrfs/index/index_store.go:InsertItem", "pkg/btrfs/index/index_store.go:Commit", "pkg/btrfs/index/index_store.go:Open"]}
{"id": "C80", "title": "Recover raises no false alarms", "statement": "Whenever recover prints a warning about a path there is a reason: about a directory, only if creating that directory has just failed; about a file, only if since recover looked at this file a step taken for it failed (opening, writing, cutting to size, or a read of the device reported an error or the end); about a link, only if such a step or creating the link failed, or the index has a link entry of that name with no target.", "quantifier": "all indexes, devices, file trees and destinations, all patterns of failing or fatal system calls, all runs whether they complete, panic or are killed", "why_tests_cant": "all fault patterns at all points of all runs", "anchors": ["cmd/recover.go:doRecoverFiles", "cmd/recover.go:recoverDir", "cmd/recover.go:recoverFile", "cmd/recover.go:recoverSymlink"]}
{"id": "C81", "title": "Mounting an incomplete index with a damaged device", "statement": "If items are missing from the index of a sound volume and parts of the device are spoilt or unreadable, then whatever the kernel asked before: every path it knows stands for what it stood for on the sound volume; attributes are the original ones, or ENOATTR exactly where the inode item is missing; a directory lists exactly the entries that are left; looking up a listed name succeeds unless the inode item of what it names is missing, and gives ENOENT for every name not left; a link gives its target, or ENODATA if that is missing; a file can be opened unless no extent of it is left, and reads back exactly its content if none of its items is missing and its data is unspoilt. Everything that entries which are left lead to can be looked up.", "quantifier": "all sound volumes, all sets of missing items, all damage to the device, all sequences of requests, all map iteration orders", "why_tests_cant": "all damages, volumes and request histories", "anchors": ["internal/rescuefs/nodefs.go:Lookup", "internal/rescuefs/nodefs.go:OpenDir", "internal/rescuefs/nodefs.go:GetAttr", "internal/rescuefs/nodefs.go:Open", "internal/rescuefs/nodefs.go:Readlink"]}
{"id": "C82", "title": "Recon of a damaged image, then mount", "statement": "If parts of the image of a sound volume are overwritten, recon of what is left succeeds, and the index it writes, mounted with the damaged image as device, shows as in C81 what is left of the original tree.", "quantifier": "all sound volumes, all damages that leave a set of whole metadata blocks, all sequences of requests", "why_tests_cant": "all images, damages and request histories", "anchors": ["cmd/recon.go:doScanFS", "cmd/mount.go", "internal/rescuefs/nodefs.go"]}
{"id": "C83", "title": "Mounting any legible volume", "statement": "Let the directory items and inode items of a volume be decodable; it may hold special files, empty files, entries without inode items, several entries of one name, loops. Then whatever the kernel asked the mount before: every path it knows stands for the inode that the directory items along the path (of several of one name the last) lead to; attributes are those of its inode item, or ENOATTR if there is none; a directory lists each name once, as directory if its entry says so and as regular file otherwise; looking up a listed name gives the entry's inode and its attributes, any other name ENOENT; a file without gaps reads back exactly its content; something without extents cannot be opened (ENOENT) and without inline extent at offset 0 is no link (ENODATA). Every path along which all inode items exist can be looked up.", "quantifier": "all volumes with decodable items, all devices, all sequences of requests, all map iteration orders", "why_tests_cant": "all volumes and request histories", "anchors": ["internal/rescuefs/nodefs.go:Lookup", "internal/rescuefs/nodefs.go:OpenDir", "internal/rescuefs/nodefs.go:GetAttr", "internal/rescuefs/nodefs.go:Open", "internal/rescuefs/nodefs.go:Readlink"]}
{"id": "C84", "title": "Recon, then mount of any legible volume", "statement": "If all metadata blocks of an image are sound leaves and nodes, recon of it succeeds, and the index it writes, mounted, answers every request as C83 demands of the volume that the image's newest items describe.", "quantifier": "all images with decodable items, all sequences of requests", "why_tests_cant": "all images and request histories", "anchors": ["cmd/recon.go:doScanFS", "cmd/mount.go", "internal/rescuefs/nodefs.go"]}
{"id": "C85", "title": "Recover survives damaged items", "statement": "Whatever bytes the items of an index hold, recover ends normally and restores everything that the other, sound items describe.", "quantifier": "all indexes, all item contents, all devices, all destinations, all I/O errors", "why_tests_cant": "one damaged item anywhere in any index", "anchors": ["cmd/recover.go:doRecoverFiles", "cmd/recover.go:recoverDir", "cmd/recover.go:recoverFile", "pkg/btrfs/btrfs.go:DirItem.Name"]}
{"id": "C86", "title": "No request takes the mount down", "statement": "Whatever the items of the index hold and whatever was asked before, every request to the mounted file system (attributes, lookup, directory listing, open, read, readlink, extended attributes) is answered; none stops the process.", "quantifier": "all indexes, all item contents, all devices, all sequences of requests", "why_tests_cant": "one damaged item anywhere, any request history", "anchors": ["internal/rescuefs/nodefs.go:Lookup", "internal/rescuefs/nodefs.go:OpenDir", "internal/rescuefs/nodefs.go:Open", "internal/rescuefs/files.go:Read", "pkg/btrfs/btrfs.go:DirItem.Name"]}
{"id": "C87", "title": "Mount shows what recover restores", "statement": "For the same image and index, every path the mount shows is one that recover writes below the destination and vice versa; directories have the same entries, files the same size and content, links the same target.", "quantifier": "all images of a volume without I/O errors, all destinations, all request histories, all read buffer sizes", "why_tests_cant": "two programs, every tree and every history of requests", "anchors": ["cmd/recover.go:doRecoverFiles", "internal/rescuefs/nodefs.go:Lookup", "internal/rescuefs/nodefs.go:OpenDir", "internal/rescuefs/files.go:Read", "internal/rescuefs/nodefs.go:Readlink"]}
{"id": "C88", "title": "Recon into an existing metadata file", "statement": "With --append, recon keeps every item of an existing metadata file that the image does not have and adds the image's items, so images of parts of a file system can be combined; without --append the file afterwards holds only items of the image.", "quantifier": "all metadata files, images, options, I/O errors and crash points", "why_tests_cant": "every index and every image", "anchors": ["cmd/recon.go:doScanFS", "cmd/recon.go:scanFSOptions", "pkg/btrfs/index/index_store.go:Open", "pkg/btrfs/index/index_store.go:InsertItem"]}
{"id": "C89", "title": "A command that cannot work says so and leaves everything alone", "statement": "An invocation with the wrong number of arguments, without --metadata, without a usable --id, with an image that cannot be opened or is too small, or with a metadata file that is missing, is no database, belongs to another version or (recon) to another file system or block size, ends with a failure status and changes nothing. Whatever happens, only recon changes the metadata file it was given (and nothing else), only recover changes the file system, and no command changes the image.", "quantifier": "all command lines, machines, metadata files and failures", "why_tests_cant": "combinations of arguments, files and failures are unbounded", "anchors": ["cmd/root.go:Execute", "cmd/mount.go:doMountRescueFS", "cmd/recon.go:doScanFS", "cmd/recover.go:doRecoverFiles", "cmd/ls.go:doListFiles", "cmd/dump_index.go:doDumpIndex", "cmd/identify.go:init", "cmd/btrfscue/app/util/cliutil.go:ReportError", "pkg/btrfs/index/index_store.go:Open"]}
{"id": "C90", "title": "The documented workflow works from the command line", "statement": "After a successful `recon --id ID IMAGE` with a new metadata file, `recover IMAGE DIR` exits with 0 and has restored the whole tree of the image below DIR, `mount IMAGE DIR` serves exactly that tree, and `ls` lists it; recon succeeds on every sound image, and the later commands need only the same --metadata, whatever --block-size says.", "quantifier": "all images of a volume, all ids in every accepted spelling, all other files on the machine, all destinations and arguments", "why_tests_cant": "every image and every combination of commands", "anchors": ["cmd/recon.go:doScanFS", "cmd/recover.go:doRecoverFiles", "cmd/mount.go:doMountRescueFS", "cmd/ls.go:doListFiles", "cmd/root.go:init", "pkg/btrfs/index/index_store.go:OpenReadOnly"]}
{"id": "C91", "title": "What identify prints can be given to recon", "statement": "Every id that identify reports is carried by a leaf of the image, and given to recon exactly as printed, for the same image and block size, recon accepts it and indexes the items of the leaves that carry it.", "quantifier": "all images, option values, random sequences and map orders", "why_tests_cant": "every image and every random sequence", "anchors": ["cmd/identify.go:init", "internal/identify/identify.go:IdentifyFS", "pkg/uuid/uuid.go:String", "pkg/uuid/uuid.go:Set", "cmd/recon.go:doScanFS"]}
{"id": "C92", "title": "dump-index after recon", "statement": "After recon, dump-index prints one line for each distinct item (owner, key, generation) of the image, in index order with a heading for each owner, then one line for the metadata record, and exits with 0.", "quantifier": "all images of sound leaves with at least one item", "why_tests_cant": "every set of items", "anchors": ["cmd/dump_index.go:doDumpIndex", "cmd/recon.go:doScanFS", "pkg/btrfs/index/index_store.go:FullRange"]}
{"id": "C93", "title": "A volume that was written comes back", "statement": "Whatever tree of directories, regular files and symbolic links a volume holds, if its image carries the items of that tree (inodes, one directory item per name under the hash of the name, inline or uncompressed regular extents and holes, one chunk) among any other items that do not concern files, then `btrfscue recon` with the id of the file system followed by `btrfscue recover` creates exactly that tree below the destination, with equal file content and link targets and no warning; `btrfscue mount` serves exactly that tree; and `btrfscue ls` prints the entries of its directories. In particular there is a layout for every tree with valid names (no two names of a directory with the same hash), link targets and inodes, whose file data does not itself contain a copy of a leaf of the file system, and the tree written in this layout is the tree that comes back.", "quantifier": "all directory trees of any size and depth, all inode attributes, all file contents, placements of data and numbers of objects; all images that carry them (order, copies and further items arbitrary), all host file systems, all options", "why_tests_cant": "It is a round trip over all trees and layouts: a test can write some volumes, and needs a mkfs to do so; a theorem relates the on-disk description of any tree to the effects of the commands.", "anchors": ["cmd/recon.go:doScanFS", "cmd/recover.go:doRecoverFiles", "cmd/mount.go", "cmd/ls.go", "pkg/btrfs/index/index_store.go", "pkg/btrfs/btrfs.go"]}
{"id": "C94", "title": "The top of the mount point shows the metadata file as it is and protects it", "statement": "Below the mount point there are two names. `metadata` is the metadata file: reading it gives its bytes, whatever the sizes of the reads, its attributes are those of the file at the time of the mount but with no write permission for anyone, and no sequence of requests that the kernel can send changes, truncates, removes or (if it is gone) re-creates the file; everything that would change it is answered with an error. `rescue` is the file system, listed and entered exactly when the inode item of its top directory is in the metadata, and after recon of a sound volume always.", "quantifier": "all sequences of requests, all files, all flags the kernel passes on, all permissions, all states of the mount; all volumes and images for the composition with recon", "why_tests_cant": "the requests come from other processes in any number and order, with any flags and offsets; a test makes a few of them", "anchors": ["internal/rescuefs/nodefs.go:newNode", "internal/rescuefs/nodefs.go:OnMount", "internal/rescuefs/nodefs.go:GetAttr", "internal/rescuefs/nodefs.go:newMetadataNode", "internal/rescuefs/nodefs.go:Open", "internal/rescuefs/rescuefs.go:New", "cmd/mount.go:doMountRescueFS"]}
{"id": "C95", "title": "Volumes whose blocks are of different generations", "statement": "Every sound volume comes back whole whatever the generations of its leaves. For the code that exists: the items of one object are seen in key order, all in the generation of the newest version of the first, up to the first key of which the image has no item of that generation; single items are seen in their newest version; recon then recover restores exactly the tree these items describe, and the mount shows it; everything is seen just when the newest versions of an object's items are of one generation.", "quantifier": "all images, all sets of leaves with any generations, owners and keys (trees separated, see C19), all directory and file trees, destinations and mount sessions", "why_tests_cant": "the versions of every item, spread over leaves of any generations, must be compared for every image; tests have volumes written in one transaction", "anchors": ["pkg/btrfs/index/index_store.go:Range", "pkg/btrfs/index/index_store.go:Next", "cmd/recon.go:doScanFS", "cmd/recover.go:doRecoverFiles", "internal/rescuefs/nodefs.go"]}
{"id": "C96", "title": "Extended attributes and index queries after recon", "statement": "After recon of an image, each query of the index (entries, extents and attributes of an object, inode, first extent, extent record, chunks, devices, subvolumes) returns the items btrfs numbers for it, in key order, as seen (C95); the mount lists every extended attribute of a file and returns its value under its name, and says there is no such attribute for any other name. For the code that exists: only the first attribute of each item is shown, so attributes whose names have the same hash are lost except one.", "quantifier": "all images, all sets of leaves, all trees, objects, attribute names and values", "why_tests_cant": "the packed attributes of every item and the hash collisions of names are never met by a few sample attributes", "anchors": ["pkg/btrfs/index/index_store.go:XAttrItems", "internal/rescuefs/nodefs.go:GetXAttr", "internal/rescuefs/nodefs.go:ListXAttr", "cmd/recon.go:doScanFS"]}
{"id": "C97", "title": "Files whose names have the same hash come back", "statement": "btrfs keeps the directory entries whose names have the same CRC32C hash in one item. Every one of them is restored by recover, or a warning says it is not. For the code that exists: recover restores exactly the first entry of each item, without a warning.", "quantifier": "all images, directories and sets of names with the same hash", "why_tests_cant": "tests do not have names whose hashes collide; the claim needs every directory item with any number of packed entries", "anchors": ["cmd/recover.go:recoverDir", "pkg/btrfs/btrfs.go:DirItem", "pkg/btrfs/index/index_store.go:NameHash"]}
{"id": "C98", "title": "ls prints aligned columns", "statement": "What ls prints on standard output, for file names without tab, newline, vertical tab, form feed and the byte 0xff, is a table: a line for every entry with its fields (inode number if asked for, type and permissions, links, owner, group, size, time, name), every field of a column beginning after the same number of characters, a column being one space wider than its widest field; a line 'name:' in front of each subdirectory starts a new table. Nothing is cut off, and characters are counted, not bytes, for names in UTF-8. Names with a newline can forge lines and a byte 0xff switches the alignment off for what follows.", "quantifier": "all directory trees, arguments, options, names, inode contents, images", "why_tests_cant": "the layout depends on all rows of a table at once; tests look at a few listings", "anchors": ["cmd/ls.go:doListFiles", "cmd/ls.go:listDirItem", "cmd/ls.go:listDirectory"]}
{"id": "C99", "title": "the text identify prints can be read back", "statement": "identify prints a heading (unless --machine is given) and a line for each entry found with id, count, entropy and block size, in the order of the report and aligned. With --machine (and without --verbose, see C105) the fields of the lines, parted by one or more tabs, are exactly those of the entries; the first two can be had with cut, and the first is an id that recon --id accepts and that makes it index that file system. The entropy and block size are not always the third and fourth tab-separated column.", "quantifier": "all images, samples, reports, entropy texts", "why_tests_cant": "the number of tabs depends on the widths of all rows", "anchors": ["internal/identify/identify.go:IdentifyFS", "internal/identify/collector.go:FSEntry", "cmd/recon.go:doScanFS"]}
{"id": "C100", "title": "ls on images of several generations", "statement": "ls lists every entry of a directory, and the entry it shows for a path is the one the listing of its directory shows, whatever the generations of the leaves. For the code that exists: a directory's listing has the entries seen (C95); a path is followed through the newest version of the entry stored under the hash of each name and, where there is none, through the entry listed under that name; so an entry may be found by its path although the listing of its directory lacks it.", "quantifier": "all images, all leaves with any generations (trees separated, entries stored under the hash of their name, no subvolumes), all arguments and options, all trees for --recursive", "why_tests_cant": "every version of every entry in leaves of any generations has to be compared; tests use images written in one transaction", "anchors": ["cmd/ls.go:doListFiles", "pkg/btrfs/index/index_store.go:FindDirItemForPath", "pkg/btrfs/index/index_store.go:Range", "cmd/recon.go:doScanFS"]}
{"id": "C101", "title": "the times ls prints", "statement": "The time in a row of ls is month, day, hour and minute of the inode's change time in the Gregorian calendar and the local time zone: the three-letter month, the day with a leading space, hours and minutes with two digits; always twelve characters, so that it is one field of the table. Two times look alike just when these four agree; the year is not shown, so the text does not tell which of two files is older.", "quantifier": "all times of an inode (from the year -292277022399 on), all time zones, leap and century years, all images for recon then ls", "why_tests_cant": "the calendar has a period of 146097 days and times are 64-bit numbers; tests try a few dates", "anchors": ["cmd/ls.go:shortTime", "cmd/ls.go:listDirItem"]}
{"id": "C102", "title": "how many blocks identify reads", "statement": "For a --sample-fraction from 0 to 1, identify wants a number of samples that is less than one away from the fraction of the device's blocks, exact where that is a whole number, never more than there are and never less for a larger fraction or device; it is then brought between --min-blocks and --max-blocks. With the fraction 1 and a block size dividing 64 KiB every block is read once and the report has the exact number of leaves of every file system. A negative fraction is not refused: on amd64 it becomes --max-blocks, and identify may never end.", "quantifier": "all float64 fractions from 0 to 1, all devices and block sizes up to 2^53 blocks, all random draws, all contents", "why_tests_cant": "the product is rounded; whether rounding crosses a whole number depends on all 64 bits of the fraction and on the size of the device", "anchors": ["internal/identify/identify.go:IdentifyFS", "internal/identify/identify.go:MakeSampleOffsets", "cmd/identify.go"]}
{"id": "C103", "title": "the entropy identify prints", "statement": "For every id that identify reports, the number in the entropy column, read as a decimal number, is the Shannon entropy of the 16 bytes of the id in the first column up to half a millionth, plus the error of math.Log2, plus 2^-45 for the rounding of all float64 operations, whatever the order in which Go iterates its maps. The text always has digits, a point and six digits; a greater number is never printed as a smaller one; a minus sign is printed only if all bytes of the id are the same (then the text is -0.000000). In the report no line shows a greater count than a line above it, nor a greater entropy where the counts are the same. Of two entries with the same count the first has the greater Shannon entropy, but for twice that error.", "quantifier": "all ids of 16 bytes, all iteration orders, all implementations of math.Log2 of a given accuracy, all finite float64 values for the text; all images, options and random numbers for the composition with identify", "why_tests_cant": "the rounding errors depend on the order of map iteration, which Go randomises, and there are 2^128 ids", "anchors": ["internal/identify/identify.go:IdentifyFS", "pkg/coding/entropy.go:ShannonEntropy", "internal/identify/collector.go:Entries"]}
{"id": "C104", "title": "What --clobber may destroy under a link", "statement": "Recovering a symbolic link changes no entry of the file system but the one its path denotes, whatever fails and wherever the run is killed; a directory that has entries stays; with --clobber a file, a link or an empty directory in its place gives way to the link; a link that cannot be recovered leaves what was under its name.", "quantifier": "all file systems, faults, crash points, indexes and devices", "why_tests_cant": "needs every state of the file system and every fault schedule", "anchors": ["cmd/recover.go:recoverSymlink"]}
{"id": "C105", "title": "What else is printed", "statement": "With --machine every line of the standard output of identify is the line of an entry found. For the code that exists this holds without --verbose; with it, one more line \"sampling N blocks...\" with the number of blocks sampled comes first, whose first column is refused as an id by recon. The warning that no id occurred often enough is given exactly when no id was found in --min-occurrence or more of the sampled blocks. Of all the calls of Physical on an open index only the first prints, a line \"stripe: LOGICAL => PHYSICAL @ GENERATION\" for every chunk, in the order of the logical addresses (so recover prints them once), and the output changes no result.", "quantifier": "all reports, options, images, random numbers, iteration orders; all chunk maps and sequences of calls", "why_tests_cant": "the number of lines and calls is not bounded; tests do not look at standard output", "anchors": ["internal/identify/identify.go:IdentifyFS", "pkg/btrfs/index/index_store.go:Physical", "cmd/btrfscue/app/util/cliutil.go:Verbosef"]}
{"id": "C106", "title": "What recover tells with --verbose", "statement": "With --verbose, recover's lines on standard output tell what was done: from the text alone one can see which files were opened for writing and which links were made, in order, and every entry of every directory that was read is told of, or warned about. For the code that exists: printing changes nothing of what is done; the lines name, in order, exactly the files opened for writing and the links attempted, also when the run is killed, and each line is true (the size is the inode's or 0, what is skipped as existing was found there and --clobber was not given, what is skipped as special is an entry of a directory that was read, of another type than directory, file and link); in a run that ends every file, link or special entry with a name recover accepts has its line or its warning, and every subvolume has its line unless an entry that was read leads to it; the text gives back all lines if paths have no newline, but of a link only \"path -> target\" as a whole; and entries with refused names are left out without a word.", "quantifier": "all indexes, devices, file systems, faults, crash points and runs", "why_tests_cant": "needs every directory graph, fault schedule and crash point, and all names", "anchors": ["cmd/recover.go:doRecoverFiles", "cmd/recover.go:recoverDir", "cmd/recover.go:recoverFile", "cmd/recover.go:recoverSymlink", "cmd/btrfscue/app/util/cliutil.go:Verbosef"]}
