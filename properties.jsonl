{"id": "C01", "title": "Bytes round trip", "statement": "Whenever pack_bytes_to_bytes returns, unpack_bytes_from_bytes of the result returns exactly the original bytes together with the metadata (as JSON reads it back), or None when no metadata was given.", "quantifier": "all byte strings (any length, including empty), all chunk sizes, all blosc/bloscpack/metadata arguments, all JSON-serialisable metadata", "why_tests_cant": "tests sample a handful of arrays and chunk sizes; the claim is about every length/chunk-size/option combination", "anchors": ["bloscpack/file_io.py:pack_bytes_to_bytes", "bloscpack/file_io.py:unpack_bytes_from_bytes", "bloscpack/abstract_io.py:pack", "bloscpack/abstract_io.py:unpack"]}
{"id": "C02", "title": "Packing never fails on valid arguments", "statement": "pack_bytes_to_bytes returns (raises nothing) for every input when the chunk size is a legal one, the blosc arguments are ones Blosc accepts, the checksum is a known one, the append reserve is a non-negative int or a callable returning one, and either there is no metadata or it serialises and fits its section.", "quantifier": "all inputs and all argument combinations meeting the stated validity conditions", "why_tests_cant": "success must hold at every size boundary (0, 1, chunk-1, chunk, chunk+1, ...) and every option combination", "anchors": ["bloscpack/file_io.py:pack_bytes_to_bytes", "bloscpack/abstract_io.py:pack", "bloscpack/args.py:calculate_nchunks", "bloscpack/args.py:_handle_max_apps", "bloscpack/headers.py:BloscpackHeader"]}
{"id": "C03", "title": "Chunking partitions the input", "statement": "calculate_nchunks(size, cs) returns (n, cs', last) with n>=1, (n-1)*cs'+last = size, last <= cs', cs' = min(cs,size), and last>0 unless size=0.", "quantifier": "all sizes >= 0 and all legal chunk sizes", "why_tests_cant": "unbounded integers; boundary arithmetic at every multiple of the chunk size", "anchors": ["bloscpack/args.py:calculate_nchunks"]}
{"id": "C04", "title": "Chunking rejects exactly the illegal requests", "statement": "calculate_nchunks raises exactly when: the size is negative (ValueError), or the size is positive and the chunk size is not an int/size string in 1..BLOSC_MAX_BUFFERSIZE, or the resulting number of chunks exceeds 2**63-1 (ChunkingException).", "quantifier": "all sizes and all chunk size arguments (int, string, other)", "why_tests_cant": "the accept/reject boundary ranges over unbounded integers", "anchors": ["bloscpack/args.py:calculate_nchunks", "bloscpack/headers.py:check_range", "bloscpack/pretty.py:reverse_pretty"]}
{"id": "C05", "title": "Append reserve is always representable", "statement": "The effective append reserve is 0 without offsets or with unknown chunk count; otherwise it is the requested number clipped so that nchunks + reserve <= 2**63-1; a reserve that is negative, or neither int nor callable, is rejected; an exception the callable raises is passed on.", "quantifier": "all offsets flags, chunk counts, int and callable reserves", "why_tests_cant": "clipping boundary at 2**63-1, arbitrary user callables", "anchors": ["bloscpack/args.py:_handle_max_apps"]}
{"id": "C06", "title": "Bloscpack header object survives encode/decode", "statement": "For every header that the constructor accepts, encoding gives 32 bytes and decoding them gives an equal header.", "quantifier": "all constructor-accepted header values", "why_tests_cant": "the product of all field ranges is astronomically large", "anchors": ["bloscpack/headers.py:BloscpackHeader"]}
{"id": "C07", "title": "Header decoding is exact and canonical", "statement": "BloscpackHeader.decode accepts a buffer exactly when it has 32 bytes, the magic, options < 4, checksum code < 9 and fields within the documented ranges; re-encoding an accepted header reproduces the buffer, so no two buffers mean the same header.", "quantifier": "all byte strings", "why_tests_cant": "256**32 buffers", "anchors": ["bloscpack/headers.py:BloscpackHeader.decode", "bloscpack/headers.py:BloscpackHeader.encode"]}
{"id": "C08", "title": "Metadata header survives encode/decode", "statement": "For every metadata header that the constructor accepts and whose two 8-byte identifiers have no NUL at either end, decode(encode(h)) = h and the encoding is 32 bytes.", "quantifier": "all constructor-accepted metadata headers", "why_tests_cant": "product of field ranges", "anchors": ["bloscpack/headers.py:MetadataHeader"]}
{"id": "C09", "title": "Metadata section round trip", "statement": "Metadata written with any metadata arguments is read back equal (as JSON reads it back), with the header describing exactly what is stored, wherever in the file the section is.", "quantifier": "all metadata values, metadata arguments, surrounding file contents", "why_tests_cant": "arbitrary JSON values, compressors and preallocation sizes", "anchors": ["bloscpack/file_io.py:_write_metadata", "bloscpack/file_io.py:_read_metadata"]}
{"id": "C10", "title": "Metadata section geometry", "statement": "A written metadata section occupies exactly 32 + max_meta_size + digest-size bytes and that number is returned; the stored payload is never larger than the raw serialisation nor than max_meta_size; a payload that cannot fit raises MetadataSectionTooSmall with nothing written.", "quantifier": "all metadata values and arguments", "why_tests_cant": "sizes depend on the compressor's behaviour on every input", "anchors": ["bloscpack/file_io.py:_write_metadata", "bloscpack/args.py:MetadataArgs"]}
{"id": "C11", "title": "File layout follows the documented format", "statement": "A packed file is byte for byte: 32-byte header, metadata section if any, (nchunks+max_app_chunks) 8-byte offsets if enabled, then every Blosc chunk followed by its digest, and nothing else; hence its size is the documented overhead plus the compressed chunk sizes.", "quantifier": "all inputs and arguments", "why_tests_cant": "tests check only first offsets of two files", "anchors": ["bloscpack/file_io.py:CompressedFPSink", "bloscpack/abstract_io.py:pack"]}
{"id": "C12", "title": "Offsets give random access", "statement": "In a packed file the i-th offset is the exact position of chunk i: reading there yields a Blosc buffer that decompresses to bytes [i*chunk_size, (i+1)*chunk_size) of the input.", "quantifier": "all inputs, arguments and chunk indices", "why_tests_cant": "the test-suite comment says 'we assume that the others are correct'", "anchors": ["bloscpack/file_io.py:CompressedFPSink.put", "bloscpack/file_io.py:CompressedFPSink.finalize", "bloscpack/file_io.py:_read_offsets"]}
{"id": "C13", "title": "Unused offsets are -1", "statement": "Every offset entry reserved for future appends holds -1 in a packed file and after any number of appends.", "quantifier": "all files and append histories", "why_tests_cant": "quantifies over histories", "anchors": ["bloscpack/file_io.py:CompressedFPSink.init_offsets", "bloscpack/append.py:append_fp"]}
{"id": "C14", "title": "Uncompressed size can be computed from the header", "statement": "chunk_size*(nchunks-1)+last_chunk read from the header equals the uncompressed length, after packing and after every append.", "quantifier": "all inputs and append histories", "why_tests_cant": "invariant over histories", "anchors": ["bloscpack/headers.py:BloscpackHeader", "bloscpack/append.py:append_fp"]}
{"id": "C15", "title": "Unpack never emits unverified data", "statement": "For an arbitrary (possibly hostile or damaged) file, whatever unpack has written when it returns or raises is the concatenation of decompressions of successive chunks, each of which either matched its stored digest, or belongs to a file without checksum, or lost its whole digest to end of file.", "quantifier": "all byte strings as files", "why_tests_cant": "arbitrary corrupted inputs", "anchors": ["bloscpack/abstract_io.py:unpack", "bloscpack/file_io.py:CompressedFPSource", "bloscpack/file_io.py:_read_compressed_chunk_fp"]}
{"id": "C16", "title": "Single-byte corruption of chunk data is detected", "statement": "Changing any one byte of any chunk (other than the chunk's own 4-byte length field) or of any digest of a file packed with adler32 or crc32 makes unpack raise ChecksumMismatch, having output exactly the chunks before the damaged one.", "quantifier": "all inputs, all arguments, every byte position, every replacement byte", "why_tests_cant": "one test flips one byte of one file", "anchors": ["bloscpack/checksums.py:zlib_hash", "bloscpack/abstract_io.py:unpack"]}
{"id": "C17", "title": "Single-byte corruption of metadata is detected", "statement": "Changing any one byte of the stored metadata payload or its digest (adler32/crc32) makes unpack raise ChecksumMismatch before any data is output.", "quantifier": "all metadata, arguments, positions, replacement bytes", "why_tests_cant": "not tested at all", "anchors": ["bloscpack/file_io.py:_read_metadata"]}
{"id": "C18", "title": "Truncation is never silent", "statement": "For every proper prefix of a packed file, unpack either raises or returns exactly the original data and metadata (the latter exactly when nothing of the chunks and digests is missing, or the last digest is missing completely).", "quantifier": "all inputs, arguments and truncation points", "why_tests_cant": "every truncation point of every file", "anchors": ["bloscpack/file_io.py:CompressedFPSource", "bloscpack/file_io.py:_read_compressed_chunk_fp", "bloscpack/abstract_io.py:unpack"]}
{"id": "C19", "title": "A pack interrupted at any point never unpacks to wrong data", "statement": "At every crash point during packing (every byte-level prefix of the writes issued), unpacking what is on disk raises or returns exactly the full original data; and until the final offsets update starts, a completely written offset table holds only -1.", "quantifier": "all inputs, arguments and crash points", "why_tests_cant": "every crash point", "anchors": ["bloscpack/abstract_io.py:pack", "bloscpack/file_io.py:CompressedFPSink.init_offsets", "bloscpack/file_io.py:CompressedFPSink.finalize"]}
{"id": "C20", "title": "Unpack depends only on header, metadata payload and chunks", "statement": "Replacing the offset table contents, the preallocated metadata padding or adding bytes after the last chunk does not change what unpack returns.", "quantifier": "all packed files, all replacement bytes", "why_tests_cant": "arbitrary byte replacements", "anchors": ["bloscpack/file_io.py:_read_offsets", "bloscpack/file_io.py:_read_metadata", "bloscpack/file_io.py:CompressedFPSource"]}
{"id": "C21", "title": "Append appends", "statement": "When append returns, unpacking the file gives the old contents followed by the new contents, with the metadata unchanged.", "quantifier": "all packed (and previously appended-to) files with offsets, all new contents, all blosc arguments", "why_tests_cant": "every combination of last-chunk fill level, new size and chunk size", "anchors": ["bloscpack/append.py:append_fp"]}
{"id": "C22", "title": "Histories of appends and metadata rewrites refine a simple (contents, metadata) pair", "statement": "After any sequence of append and metadata-rewrite operations, successful or failing, unpack returns the concatenation of the initial and all successfully appended contents and the most recently written metadata.", "quantifier": "all initial files and all operation sequences", "why_tests_cant": "histories of unbounded length", "anchors": ["bloscpack/append.py:append_fp", "bloscpack/append.py:_rewrite_metadata_fp"]}
{"id": "C23", "title": "Append touches nothing but header counts, the last chunk, and free offsets", "statement": "A successful append leaves the metadata section, the offsets of existing chunks and all chunks but the last byte-identical, and keeps format version, checksum, typesize, chunk size and option bits of the header.", "quantifier": "all files and appended contents", "why_tests_cant": "frame condition over every byte", "anchors": ["bloscpack/append.py:append_fp"]}
{"id": "C24", "title": "Append capacity is accounted exactly", "statement": "Append to a file that could take it returns the number k of new chunks = ceil((new - room in last chunk)/chunk_size) (0 if it fits); it raises NotEnoughSpace exactly when k exceeds max_app_chunks; nchunks grows and max_app_chunks shrinks by k so their sum never changes.", "quantifier": "all files, sizes and histories", "why_tests_cant": "boundaries of fill level times reserve", "anchors": ["bloscpack/append.py:append_fp"]}
{"id": "C25", "title": "A failing append changes nothing", "statement": "If append_fp on a packed (or appended-to) file raises, the file is byte-identical to before.", "quantifier": "all files, contents, blosc arguments (valid or not)", "why_tests_cant": "all failure causes", "anchors": ["bloscpack/append.py:append_fp"]}
{"id": "C26", "title": "Append crash safety for completed chunks", "statement": "At every crash point of an append, the metadata section, the already recorded offsets and every chunk except the last are still intact on disk (the last chunk is not: see the refutation).", "quantifier": "all files, contents, crash points", "why_tests_cant": "every crash point", "anchors": ["bloscpack/append.py:append_fp"]}
{"id": "C27", "title": "Metadata rewrite changes only the metadata section", "statement": "A successful metadata rewrite changes no byte outside the metadata section, keeps the section's size, and afterwards the file yields the new metadata and the same contents.", "quantifier": "all files with metadata, all new metadata and overrides", "why_tests_cant": "arbitrary metadata sizes vs preallocation", "anchors": ["bloscpack/append.py:_rewrite_metadata_fp", "bloscpack/append.py:_recreate_metadata"]}
{"id": "C28", "title": "A failing metadata rewrite changes nothing", "statement": "If a metadata rewrite raises, the file is byte-identical to before.", "quantifier": "all files, metadata, overrides", "why_tests_cant": "all failure causes", "anchors": ["bloscpack/append.py:_rewrite_metadata_fp"]}
{"id": "C29", "title": "Metadata rewrite decision rule", "statement": "Rewriting raises NoChangeInMetadata iff the new metadata equals the old; otherwise ChecksumLengthMismatch iff the requested checksum has a different digest size; otherwise MetadataSectionTooSmall iff the new payload does not fit the preallocated space. Overrides that name no serializer, checksum, codec or level are refused, the first wrong one deciding. On success the section carries the checksum, codec and level asked for (without overrides: codec zlib and level 6, whatever the file had).", "quantifier": "all files, metadata and overrides with valid names/levels", "why_tests_cant": "precedence of errors over all inputs", "anchors": ["bloscpack/append.py:_rewrite_metadata_fp", "bloscpack/append.py:_recreate_metadata"]}
{"id": "C30", "title": "File API equals bytes API and touches only the output file", "statement": "pack_file_to_file writes exactly what pack_bytes_to_bytes would return for the file's contents, unpack_file_from_file restores it, and no path other than out_file changes (for in_file != out_file). Names that do not exist (or an empty output name) raise OSError and nothing changes.", "quantifier": "all file systems, contents and arguments", "why_tests_cant": "frame over all paths", "anchors": ["bloscpack/file_io.py:pack_file_to_file", "bloscpack/file_io.py:unpack_file_from_file", "bloscpack/file_io.py:pack_bytes_to_file", "bloscpack/file_io.py:unpack_bytes_from_file"]}
{"id": "C31", "title": "Concurrent modification of the input between size check and read", "statement": "If the input file changes after its size s was taken, pack_file_to_file stores exactly the first min(s, new length) bytes of what it reads; unpack returns those.", "quantifier": "all contents and all sizes observed earlier", "why_tests_cant": "race outcome for every pair of contents", "anchors": ["bloscpack/file_io.py:pack_file_to_file", "bloscpack/file_io.py:PlainFPSource"]}
{"id": "C32", "title": "Rejected arguments leave the output file alone", "statement": "A pack_file_to_file call that raises leaves a pre-existing out_file untouched. (Holds for chunk-size errors; refuted for checksum, typesize and reserve errors: the file is truncated first.)", "quantifier": "all file systems and invalid arguments", "why_tests_cant": "needs every rejection path", "anchors": ["bloscpack/file_io.py:pack_file_to_file"]}
{"id": "C33", "title": "Packing or unpacking a file onto itself", "statement": "pack_file_to_file(f, f) preserves the data. (Refuted: the input is truncated on open and the data is lost without an exception.)", "quantifier": "all contents", "why_tests_cant": "aliasing is untested", "anchors": ["bloscpack/file_io.py:pack_file_to_file", "bloscpack/cli.py:check_files"]}
{"id": "C34", "title": "Numpy round trip", "statement": "For every array that pack_ndarray_to_bytes accepts, unpack_ndarray_from_bytes returns an array with equal dtype, shape and equal element at every index, whatever the strides, order or contiguity.", "quantifier": "all shapes, strides, orders, item sizes, contents, chunk sizes", "why_tests_cant": "memory layouts are unbounded", "anchors": ["bloscpack/numpy_io.py:PlainNumpySource", "bloscpack/numpy_io.py:PlainNumpySink", "bloscpack/numpy_io.py:pack_ndarray"]}
{"id": "C35", "title": "Numpy packing acceptance rule", "statement": "Packing an array raises ObjectNumpyArrayRejection iff it holds objects; otherwise ValueError if itemsize > 255; otherwise ChunkSizeTypeSizeMismatch iff the effective chunk size is not a multiple of the item size; with valid remaining arguments it otherwise succeeds.", "quantifier": "all arrays and chunk sizes", "why_tests_cant": "divisibility over all sizes", "anchors": ["bloscpack/numpy_io.py:pack_ndarray", "bloscpack/numpy_io.py:PlainNumpySource"]}
{"id": "C36", "title": "Numpy unpacking stays inside the allocated array", "statement": "Unpacking a file produced by pack_ndarray writes exactly the array's bytes. (For arbitrary files this is refuted: nothing compares decompressed size with array size.)", "quantifier": "all packed arrays; all files for the refutation", "why_tests_cant": "memory safety on every input", "anchors": ["bloscpack/numpy_io.py:PlainNumpySink.put"]}
{"id": "C37", "title": "Non-numpy files are rejected", "statement": "Unpacking as an array a file without metadata, or whose metadata has a different container, raises NotANumpyArray.", "quantifier": "all packed files", "why_tests_cant": "all metadata", "anchors": ["bloscpack/numpy_io.py:PlainNumpySink"]}
{"id": "C38", "title": "Memory source/sink round trip", "statement": "Packing any list of chunks into memory and unpacking gives the same list of chunks and the very same metadata object.", "quantifier": "all chunk lists and checksums", "why_tests_cant": "all lists", "anchors": ["bloscpack/memory_io.py:CompressedMemorySink", "bloscpack/memory_io.py:CompressedMemorySource", "bloscpack/memory_io.py:PlainMemorySink"]}
{"id": "C39", "title": "Command line file names invert", "statement": "The default output name of 'blpk decompress' applied to the default output name of 'blpk compress' is the original file name; decompress refuses names without the extension unless told not to check.", "quantifier": "all file names", "why_tests_cant": "all strings", "anchors": ["bloscpack/cli.py:process_compression_args", "bloscpack/cli.py:process_decompression_args"]}
{"id": "C40", "title": "Command line never overwrites without --force", "statement": "Without --force, 'blpk compress' and 'blpk decompress' leave every file that existed before byte-identical, whatever else happens.", "quantifier": "all file systems, arguments and inputs, including failing runs", "why_tests_cant": "all failure paths", "anchors": ["bloscpack/cli.py:check_files", "bloscpack/cli.py:main"]}
{"id": "C41", "title": "Command line round trip", "statement": "'blpk compress f' then 'blpk decompress f.blp out' succeeds and makes out equal to f and leaves f unchanged.", "quantifier": "all contents and settings", "why_tests_cant": "all inputs", "anchors": ["bloscpack/cli.py:main"]}
{"id": "C42", "title": "Blosc chunk header and flags decoding", "statement": "decode_blosc_header returns the little-endian fields of the first 16 bytes for every buffer of at least 16 bytes and raises for every shorter one; decode_blosc_flags is defined exactly for the codec codes 0..4 and returns the documented bits.", "quantifier": "all buffers; all 256 flag bytes", "why_tests_cant": "unbounded buffers", "anchors": ["bloscpack/headers.py:decode_blosc_header", "bloscpack/headers.py:decode_blosc_flags"]}
{"id": "C43", "title": "Options bitfield", "statement": "decode_options(create_options(o,m)) = {o,m}; decoding an option byte succeeds exactly for bytes < 4.", "quantifier": "all booleans and all 256 bytes", "why_tests_cant": "exhaustive", "anchors": ["bloscpack/headers.py:create_options", "bloscpack/headers.py:decode_options", "bloscpack/headers.py:check_options"]}
{"id": "C44", "title": "Human readable sizes", "statement": "reverse_pretty of an integer with suffix is exactly integer * 1024**k; reverse_pretty(pretty_size(n)) differs from n by at most half of one percent of the unit (plus one byte). White space around the number and underscores between its digits do not matter, underscores elsewhere are a ValueError, infinities an OverflowError.", "quantifier": "all sizes below 2**53", "why_tests_cant": "all sizes", "anchors": ["bloscpack/pretty.py:pretty_size", "bloscpack/pretty.py:reverse_pretty"]}
{"id": "C45", "title": "Argument dictionaries are checked exactly", "statement": "The argument checks accept a dictionary iff its key set is exactly the expected one.", "quantifier": "all key sets", "why_tests_cant": "all key sets", "anchors": ["bloscpack/args.py:_check_blosc_args", "bloscpack/args.py:_check_bloscpack_args", "bloscpack/args.py:_check_metadata_arguments"]}
{"id": "C46", "title": "Foreign format versions are refused", "statement": "A file whose format version is not 3 is refused with FormatVersionMismatch by unpack, append and metadata rewrite, which leave it and (for append and rewrite) every byte of it alone.", "quantifier": "all files with another version byte", "why_tests_cant": "all files", "anchors": ["bloscpack/file_io.py:_read_bloscpack_header"]}
{"id": "C47", "title": "Append verifies what it rewrites", "statement": "Appending to a file whose last chunk is damaged is detected. (Refuted: the digest of the last chunk is not checked and a fresh, valid digest is written over the damaged data.)", "quantifier": "all damaged files", "why_tests_cant": "'TODO check digest' in the source", "anchors": ["bloscpack/append.py:append_fp"]}
{"id": "C48", "title": "A file with unknown chunk count is not silently empty", "statement": "Unpacking a file whose header says nchunks = -1 raises or returns its data. (Refuted: it returns no data and no error.)", "quantifier": "all headers with nchunks = -1", "why_tests_cant": "streaming headers are legal per the README", "anchors": ["bloscpack/file_io.py:CompressedFPSource"]}
{"id": "C49", "title": "Stored metadata level is 0 when the codec is None", "statement": "As the README requires, if the stored codec is 'None' the stored level is 0, and the caller's argument object is not changed. (Refuted on both counts when compression is not beneficial.)", "quantifier": "all metadata and arguments", "why_tests_cant": "documentation vs behaviour", "anchors": ["bloscpack/file_io.py:_write_metadata", "bloscpack/args.py:MetadataArgs.nullify_codec"]}
{"id": "C50", "title": "Append keeps a null metadata section", "statement": "Appending to a file whose metadata section holds JSON null keeps that section. (Refuted: the offset table is written over the metadata section.)", "quantifier": "files whose metadata reads back as None", "why_tests_cant": "needs a special metadata value plus an append", "anchors": ["bloscpack/append.py:append_fp"]}
{"id": "C51", "title": "Appending nothing, and appending to an empty archive", "statement": "Appending an empty file leaves the contents unchanged; appending to an archive of an empty input works. (First holds, but the file-level call still raises ZeroDivisionError afterwards; second refuted: always ValueError, file unchanged.)", "quantifier": "all files / all new contents", "why_tests_cant": "degenerate sizes", "anchors": ["bloscpack/append.py:append", "bloscpack/append.py:append_fp", "bloscpack/args.py:calculate_nchunks"]}
{"id": "C52", "title": "zlib checksums as specified", "statement": "The adler32 and crc32 digests are the 4-byte little-endian values of the standard functions: adler32 equals its closed-form sums mod 65521; two messages of equal length that differ only inside one window of 4 consecutive bytes never have the same crc32 digest.", "quantifier": "all byte strings", "why_tests_cant": "all messages", "anchors": ["bloscpack/checksums.py:zlib_hash", "bloscpack/checksums.py:CHECKSUMS"]}
{"id": "C53", "title": "Old-style dtype descriptions are reconstructed", "statement": "For every structured dtype description, converting its JSON image back gives the original nesting of lists of tuples.", "quantifier": "all nested descriptions", "why_tests_cant": "unbounded nesting", "anchors": ["bloscpack/numpy_io.py:_conv"]}
{"id": "C54", "title": "'blpk info' reads only and reports the truth", "statement": "'blpk info' changes no file whatever its argument; on a file produced by packing, appends and metadata rewrites it reports the header fields, first offsets, metadata and first chunk header that are in the file.", "quantifier": "all file systems; all histories", "why_tests_cant": "all inputs", "anchors": ["bloscpack/cli.py:main", "bloscpack/file_io.py:_read_beginning"]}
{"id": "C55", "title": "'blpk append' end to end", "statement": "When 'blpk append' succeeds the archive holds old plus new contents and the metadata given with -m (the old metadata without -m or for null); when it fails the archive is still readable with its old metadata and contents that are the old ones or old plus new ones; no other file changes. (A failing command is not always without effect: with -m and no metadata section the data has been appended.)", "quantifier": "all archives, new contents, options and metadata files", "why_tests_cant": "all histories and failure points", "anchors": ["bloscpack/cli.py:main", "bloscpack/append.py:append", "bloscpack/append.py:_rewrite_metadata_fp"]}
{"id": "C56", "title": "Reading a file while it is appended to", "statement": "A reader that unpacks an archive while another process appends to it obtains the metadata and every chunk except the last unchanged, whatever mixture of old and new bytes each of its reads sees (the 32-byte header being seen whole), even if it then fails.", "quantifier": "all archives, appended contents, sequences of views of the file", "why_tests_cant": "all interleavings of reads with single-byte writes", "anchors": ["bloscpack/append.py:append_fp", "bloscpack/file_io.py:unpack_bytes_from_file"]}
{"id": "C57", "title": "Overlapping appends", "statement": "Two appends that overlap in time both take effect or one is refused. (Refuted: there is no locking; if both read the file before either writes, the one that writes last silently replaces what the other has appended, and finer interleavings leave an unreadable file.)", "quantifier": "all archives and pairs of appends", "why_tests_cant": "schedules of two processes", "anchors": ["bloscpack/append.py:append_fp", "bloscpack/append.py:append"]}
{"id": "C58", "title": "Append and metadata rewrite commute", "statement": "An append and a metadata rewrite that start from the same file do not disturb each other: for every interleaving of their single-byte writes the resulting file is the one of appending and then rewriting, and it unpacks to the new contents and the new metadata.", "quantifier": "all archives, contents, metadata, overrides, interleavings", "why_tests_cant": "exponentially many interleavings", "anchors": ["bloscpack/append.py:append_fp", "bloscpack/append.py:_rewrite_metadata_fp"]}
{"id": "C59", "title": "Appending to an array", "statement": "Defect, for every array and every non-empty append that succeeds: the bytes are appended, the stored shape stays, and unpack_ndarray then writes past the end of the array it allocates (never an error, never an array); after any history the same holds as soon as the contents have outgrown the array.", "quantifier": "all arrays, dtypes, contents appended, histories", "why_tests_cant": "memory safety for all shapes", "anchors": ["bloscpack/append.py:append_fp", "bloscpack/numpy_io.py:PlainNumpySink", "bloscpack/numpy_io.py:unpack_ndarray"]}
{"id": "C60", "title": "Chunks are not tied to their places", "statement": "Any choice of chunks of a file with their digests, in any order and with any repetitions, as many as there were, put behind the file's first part, unpacks without an error to exactly those pieces of the contents and the unchanged metadata: checksums do not protect the order of chunks.", "quantifier": "all archives, all choices of chunks", "why_tests_cant": "n^n rearrangements", "anchors": ["bloscpack/file_io.py:CompressedFPSource", "bloscpack/abstract_io.py:unpack"]}
{"id": "C61", "title": "The numbers in the header are not protected", "statement": "For every file and every well-formed header with the same version, options and checksum: unpack ignores the type size, chunk size and last chunk, and moving j chunks from the chunk count to the spare count cuts the contents off silently at a chunk boundary, to exactly the first n-j chunks.", "quantifier": "all archives, all values of the five numbers with an unchanged or lowered chunk count", "why_tests_cant": "2^136 headers", "anchors": ["bloscpack/headers.py:BloscpackHeader.decode", "bloscpack/file_io.py:_read_beginning"]}
{"id": "C62", "title": "What is printed", "statement": "A message is printed line by line under the program's prefix, without its empty lines, exactly when the current verbosity is at least the message's; an unknown level is a TypeError; an error message is always printed and ends the program with its exit code. set_level never changes what is printed (only assigning to log.LEVEL does). In particular debug prints at level DEBUG only and normal at every level.", "quantifier": "all messages, levels and states of the module", "why_tests_cant": "messages are arbitrary text; test_log.py calls set_level but checks no output after it", "anchors": ["bloscpack/log.py:verbose", "bloscpack/log.py:set_level", "bloscpack/log.py:error"]}
{"id": "C63", "title": "A printed header determines the header", "statement": "Two headers (or metadata headers) whose reports, as printed by blpk info, consist of the same lines agree in every field: the rounded sizes lose nothing because the number of bytes is printed behind them. The report has one line per field, in a fixed order, with the field's name and a value that reads back, as a Python literal (or as the bracketed number of bytes), as the field. Values are printed in printable characters only, and text that consists of printable characters is printed as it is; a size is followed by its exact number of bytes.", "quantifier": "all pairs of headers with any field values, every verbosity, every indentation", "why_tests_cant": "2^256 headers; injectivity is about pairs", "anchors": ["bloscpack/abstract_objects.py:pformat", "bloscpack/headers.py:BloscpackHeader.pformat", "bloscpack/log.py:normal"]}
{"id": "C64", "title": "Headers and arguments as dictionaries", "statement": "Under any sequence of dictionary operations the keys of a header or argument object stay the same and in order, every key holds the last value assigned to it, and each operation answers as a dictionary that has exactly these keys and refuses deletion. A failing update keeps the assignments made before the unknown key. Assignments are not validated: a header so changed still encodes, decodes to itself if it could have been constructed, and is refused with ValueError otherwise. An announced attribute that was never set is an AttributeError. The keys of BloscArgs are typesize, clevel, shuffle, cname.", "quantifier": "all objects, all operation sequences, all values", "why_tests_cant": "unbounded sequences", "anchors": ["bloscpack/abstract_objects.py:MutableMappingObject", "bloscpack/headers.py:BloscpackHeader"]}
{"id": "C65", "title": "append fills in the caller's arguments", "statement": "append completes the dictionary of blosc arguments it is given, in place: after an append to a file with offsets, the dictionary holds exactly the arguments that append used, so used again for any other file it compresses with the first file's type size.", "quantifier": "all archives, all partial argument dictionaries, all other files", "why_tests_cant": "aliasing between calls on different files", "anchors": ["bloscpack/append.py:append_fp"]}
{"id": "C66", "title": "Appending is packing again", "statement": "A successful append leaves all chunks but the last as they are; every other chunk is Blosc's output for its part of the contents under the arguments given (type size from the header and the defaults where none is given), followed by its digest. Hence two files with equal contents, chunk size and checksum, made with the same Blosc arguments by any packs, appends and metadata rewrites, consist of byte-identical chunks: appending piecewise and packing at once differ only in metadata, reserve and trailing waste.", "quantifier": "all archives, all histories, all arguments", "why_tests_cant": "two unbounded histories are compared", "anchors": ["bloscpack/append.py:append_fp", "bloscpack/abstract_io.py:pack"]}
{"id": "C67", "title": "The room a file takes", "statement": "For every archive, whatever its history: the part of the file in use (up to the end of the last digest) is the header, metadata section and offset table plus, per chunk, at least 16 bytes and the digest, and at most 16 bytes and the digest more than the data of the chunk. A packed file ends exactly there; a successful append makes the file exactly as long as the longer of the old file and the end of the new last digest (never shorter); a metadata rewrite keeps the size, whatever its outcome.", "quantifier": "all archives, all histories, all arguments", "why_tests_cant": "needs all contents and all sequences of operations; a test measures one file", "anchors": ["bloscpack/append.py:append_fp", "bloscpack/abstract_io.py:pack", "bloscpack/file_io.py:_write_compressed_chunk"]}
{"id": "C68", "title": "An interrupted metadata rewrite leaves the contents alone", "statement": "Whatever part of the writes of a metadata rewrite has reached the disk, in whatever order: header, offset table and chunks are byte-identical and are found at the same positions, and unpacking either raises having produced nothing or returns exactly the contents (provided the half-written metadata size does not reach past the end of the file; it never does when old and new metadata together fit into the file). The rewrite as a whole is not atomic: the torn file may refuse to unpack and to be rewritten, and without a metadata checksum it may unpack with metadata that is neither the old nor the new.", "quantifier": "all archives, all new metadata and overrides, all byte-wise mixtures of old and new file", "why_tests_cant": "needs every subset of the written bytes, for all files; a test kills the process at one point", "anchors": ["bloscpack/append.py:_rewrite_metadata_fp", "bloscpack/append.py:_recreate_metadata", "bloscpack/file_io.py:_write_metadata", "bloscpack/file_io.py:_read_metadata"]}
{"id": "C69", "title": "The chunk size option of the command line", "statement": "-z accepts 'max' (2**31-17), a human readable size when the text ends in a unit letter, and otherwise exactly the texts int() reads: blanks, a sign, digits with single underscores between them. Anything else, and any negative size, ends the program with code 1 before a file is touched; the exceptions are the empty text (IndexError) and infinite or too large sizes (OverflowError), which reach the user as tracebacks.", "quantifier": "all texts", "why_tests_cant": "unbounded texts; test_cmdline.cram passes two or three sizes", "anchors": ["bloscpack/cli.py:CheckChunkSizeOption", "bloscpack/pretty.py:reverse_pretty"]}
{"id": "C70", "title": "How much a file can make unpack do", "statement": "For every byte string whatsoever: unpacking it writes at most 2**32-1 bytes for each 16 bytes of the file, whatever the header claims and whether or not it ends in an exception; and if it succeeds, the number of chunks in the header is at most what fits into the file (16 bytes and a digest each).", "quantifier": "all byte strings", "why_tests_cant": "all possible crafted files; a test tries a few", "anchors": ["bloscpack/abstract_io.py:unpack", "bloscpack/file_io.py:_read_compressed_chunk_fp"]}
{"id": "C71", "title": "What blpk prints", "statement": "At the verbosity NORMAL, for every command and every state of the files: a successful compress or append prints nothing; decompress prints the metadata if it is not empty; info prints the header, the first five offsets, metadata, metadata header, and the Blosc header and flags of the first chunk, in a form from which each of them can be read back. Whenever the program ends with status 1 it has printed one of the listed messages, each line after 'blpk: error: ', and the reason given holds; on any other exception nothing was printed, except for the first lines of info when the codec of the first chunk is unknown (KeyError).", "quantifier": "all commands, all file systems, all environments", "why_tests_cant": "the cram tests show the output of about twenty invocations", "anchors": ["bloscpack/cli.py:main", "bloscpack/cli.py:check_files", "bloscpack/cli.py:process_decompression_args", "bloscpack/cli.py:process_append_args", "bloscpack/cli.py:log_metadata", "bloscpack/log.py:error"]}
{"id": "C72", "title": "Which exceptions come out", "statement": "For every byte string whatsoever: unpacking it, appending to it and rewriting its metadata raise nothing but the exceptions listed for each operation (read_errors, append_errors, rewrite_errors), an OSError for a seek before the start (never on in-memory files), an exception for a setting the caller gave, or an exception raised by Blosc, zlib or the serializer. In particular appending never raises NonUniformTypesize, and reading a header never raises struct.error; a header that announces no metadata and an offset table of 2**63 bytes or more gives an OverflowError before anything is written (if the file is shorter than that). Packing raises only for the listed reasons, and the reason holds: ChunkingException only for 2**63 bytes or more, IndexError only for the empty chunk size text, struct.error only when the file reaches 2**63 bytes, KeyError only for an unknown serializer or codec, an exception of a callable given for the reserve or the metadata space only if that callable raised it, and so on.", "quantifier": "all byte strings, all arguments, all environments", "why_tests_cant": "a test shows that some exception occurs; that no other one does is a statement about all inputs", "anchors": ["bloscpack/file_io.py:_read_beginning", "bloscpack/abstract_io.py:pack", "bloscpack/abstract_io.py:unpack", "bloscpack/append.py:append_fp", "bloscpack/append.py:_rewrite_metadata_fp"]}
{"id": "C73", "title": "The command line of blpk", "statement": "A command line that spells its options in full is carried out if and only if every option is one the main parser or the subcommand has, every value is of the required kind and in range, -v and -d are not both given, and there are as many files as the subcommand wants; it then stands for exactly one command, in which every option has the value given last or its default, and the short and long names of options and subcommands mean the same. Otherwise the first option (from the left) that is not in order decides how the program ends (0 for -h and --version, 1 or an IndexError or OverflowError for -z, 1 for a number of threads outside 1..256, 2 for all the rest), and no file is touched. 'blpk c file' is pack_file_to_file with the defaults of the library; compressing with any options and 'blpk d' give the file back; 'blpk a file new' makes the new chunks with type size 8 whatever the header says, unlike append() without arguments.", "quantifier": "all lists of arguments made of words and options spelled in full, all environments, all file systems", "why_tests_cant": "the cram tests run about twenty command lines out of infinitely many; order, repetition and the first error matter in combination", "anchors": ["bloscpack/cli.py:create_parser", "bloscpack/cli.py:_inject_blosc_group", "bloscpack/cli.py:main", "bloscpack/cli.py:process_nthread_arg"]}
{"id": "C74", "title": "Bloscpack data inside other files; the order of writes", "statement": "Without offsets, pack works at the end of any open file: it reads exactly the bytes to be packed and writes, each byte once and in order, what it writes to a file of its own. unpack works wherever the data lies, writes the contents behind what is already there, reads no byte behind the last chunk and stops there, so that files packed one behind the other are read one after the other. With offsets (the default) pack into an open file succeeds too, and what it wrote still unpacks, but the offsets go to the absolute place where the table of a file of its own would be, over the bytes of the surrounding file, and the table of the data itself keeps -1 in every entry. In a file of its own pack writes every byte once in order, and with offsets afterwards once more exactly the entries of the table that are in use.", "quantifier": "all contents, metadata, chunk sizes, arguments, surrounding bytes and file positions; all numbers of files in a row; all environments", "why_tests_cant": "the tests always pack at position 0 of an empty file, where absolute and relative positions coincide", "anchors": ["bloscpack/file_io.py:CompressedFPSink.finalize", "bloscpack/file_io.py:CompressedFPSink.put", "bloscpack/file_io.py:CompressedFPSource.__init__", "bloscpack/abstract_io.py:pack", "bloscpack/abstract_io.py:unpack"]}
{"id": "C75", "title": "Sources and sinks of different kinds", "statement": "Whatever can be packed to a file can be packed to memory, with the same chunks and digests, and comes back when unpacked to a file (behind what is there) or to a list; in memory the metadata is kept as it is, and neither it nor its arguments are checked. Any archive can be unpacked to a list: one entry per chunk of the sizes in the header; a list made too long ends in None, a list made too short is filled and then IndexError is raised. A list of byte strings of any lengths packed to a file comes back as their concatenation and as the same list, with any other bytes around the file. If the list is shorter than the announced number of chunks, packing succeeds and unpacking writes everything and then raises IndexError; if it is longer, packing with offsets raises IndexError, and without offsets succeeds and silently loses the rest. An array packed to memory is unpacked to an equal array.", "quantifier": "all contents, lists, chunk sizes, announced numbers, metadata, arguments, surrounding bytes and positions; all arrays of supported types and layouts; all environments", "why_tests_cant": "the tests combine few of the sources and sinks, on one input each, and always announce the right number of chunks", "anchors": ["bloscpack/abstract_io.py:pack", "bloscpack/abstract_io.py:unpack", "bloscpack/memory_io.py:CompressedMemorySink", "bloscpack/memory_io.py:CompressedMemorySource", "bloscpack/memory_io.py:PlainMemorySource", "bloscpack/memory_io.py:PlainMemorySink", "bloscpack/file_io.py:CompressedFPSink.put", "bloscpack/numpy_io.py:pack_ndarray"]}
{"id": "C76", "title": "Argument objects used for several packs", "statement": "In a row of packs (of byte strings and arrays, in any order, failing or not) that share one BloscArgs and one MetadataArgs object, every pack gives exactly what it would give alone with: the type size set to the item size of the last array packed or tried before (byte strings only; arrays use their own), and the metadata codec off if and only if the metadata of an earlier one did not shrink under compression. Everything packed comes back. A byte string is never packed after an array with items over 255 bytes or empty. Sharing is harmless if no metadata grows and the arrays have the object's type size; that it is harmless in general, or after failures, is refuted.", "quantifier": "all rows of jobs of any length, all contents, arrays, metadata, chunk sizes and argument objects; all environments", "why_tests_cant": "the tests make new argument objects for every call; the effect needs a particular earlier call", "anchors": ["bloscpack/numpy_io.py:pack_ndarray", "bloscpack/file_io.py:_write_metadata", "bloscpack/args.py:MetadataArgs.nullify_codec", "bloscpack/abstract_io.py:pack"]}
{"id": "C77", "title": "Which array metadata can be read back, and what array operations raise", "statement": "An archive is read as an array exactly when its metadata is a dictionary with container 'numpy' and with a dtype numpy accepts (as a literal, or converted from nested lists none of which is empty), a shape that is a size or a list of sizes >= 0, and an order numpy knows, and the data fits the array allocated from them; otherwise the exception is the one listed for the missing or bad entry. For every byte string, reading an array raises nothing but the listed exceptions; for every array, packing raises nothing but the listed exceptions, each only on its ground (objects, items of 0 bytes, a chunk size that is not a multiple of the item size, or a ground for which packing bytes fails).", "quantifier": "all metadata values, all byte strings, all arrays and arguments, all environments", "why_tests_cant": "unbounded inputs; a test cannot show that no other exception is possible", "anchors": ["bloscpack/numpy_io.py:PlainNumpySink", "bloscpack/numpy_io.py:_conv", "bloscpack/numpy_io.py:pack_ndarray", "bloscpack/numpy_io.py:unpack_ndarray"]}
{"id": "C78", "title": "Appending when the reads do not deliver what was announced", "statement": "append reads the new contents piece by piece and trusts the size announced beforehand. Whatever the reads return, and wherever they fail: a successful append to an archive makes it unpack to the old contents followed by exactly the pieces that were read, with the metadata unchanged, while the header counts the announced size; a failed one either leaves the file byte for byte, or makes it unpack to the old contents followed by the first piece with the header untouched (always so if the second read fails), the only other case being an offset that needs more than 63 bits. After any number of such appends the file unpacks to all the pieces in order, or its header is refused with ValueError and every further append leaves it alone. That a failed append changes nothing and can be repeated, and that a file stays readable after successful appends, is false.", "quantifier": "all archives, announced sizes, sequences of answers and errors of the reads (every kind of source), histories of such appends, environments", "why_tests_cant": "a test would have to change the input between two particular reads; unbounded contents, answers and histories", "anchors": ["bloscpack/append.py:append_fp", "bloscpack/append.py:append"]}
{"id": "C79", "title": "Packing when the reads do not deliver what was announced", "statement": "pack decides the number and sizes of the chunks from the size of the input, asked for beforehand, and does not look at what the reads return. Whatever they return: a successful pack unpacks to exactly the pieces that were read, in order, with the metadata, while its header counts the announced size; with acceptable arguments it does succeed as long as every piece is one that Blosc takes (apart from an offset that needs more than 63 bits). A pack that fails, at whatever point, leaves a file that cannot be unpacked; unpacking it gives the pieces read before the failure and then an error (IndexError when it was a read that failed). The appends of C78 also keep their guarantees on such files. That a change of size between measuring and reading is detected, or that the result behaves like an archive of what it holds, is false.", "quantifier": "all announced sizes, sequences of answers and errors of the reads (every kind of source), chunk sizes, metadata, argument objects, environments", "why_tests_cant": "a test would have to change the input between two particular reads; unbounded contents, answers and failure points", "anchors": ["bloscpack/file_io.py:pack_file_to_file", "bloscpack/file_io.py:PlainFPSource", "bloscpack/abstract_io.py:pack"]}
{"id": "C80", "title": "I/O errors and full disks", "statement": "An error of the operating system may end packing, appending, rewriting metadata or unpacking at any step or in the middle of any write. What is then in the file is exactly what a crash after some number of single-byte writes leaves, and every such number can occur. So: after a failed pack, unpacking gives whole chunks of the data from the start and succeeds only with all of it; after a failed append the metadata, all chunks but the last and the offsets leading to them are intact; after a failed metadata rewrite the header, offset table and chunks are intact; the output of a failed unpack is a beginning of the contents. On a disk with room for cap bytes of the file, packing, unpacking and appending give the same as on an empty one if the result fits; otherwise they raise OSError at the first byte that does not fit (a pack leaves exactly cap bytes, an unpack the first cap bytes of the output); rewriting metadata never needs room. That a failed append has changed nothing is false: the old contents may be unreadable, or the file unpacks with part of the new contents, which repeating the append then stores twice.", "quantifier": "all data, arguments, archives (for unpack and the disk theorems of append: all files), failure points and disk sizes, environments", "why_tests_cant": "the failure point is any byte of any write of unbounded files; tests would need fault injection at every one of them", "anchors": ["bloscpack/abstract_io.py:pack", "bloscpack/abstract_io.py:unpack", "bloscpack/append.py:append_fp", "bloscpack/append.py:_rewrite_metadata_fp", "bloscpack/file_io.py:CompressedFPSink"]}
{"id": "C81", "title": "Header arguments of any type", "statement": "BloscpackHeader and MetadataHeader can be made from exactly the keyword arguments that are known, are ints in range (True and False count as ints), byte strings that fit, eight zeros and ones, or known names, as demanded, and whose numbers fit together. Otherwise the first argument violating its demand, in the order of the signature, decides the exception: TypeError for a wrong type, ValueError for a wrong value, NoSuchChecksum or NoSuchCodec for anything that is no known name (but TypeError for a tuple that does not have exactly one element). offsets and metadata are not checked: encoding writes int() of both in decimal and reads the result in base 2, so that apart from 0 and 1 only offsets=10 or 11 without metadata can be decoded again, as another header. A header accepted with other types but int() 0 or 1 for both flags is written and read back as the one with proper types. Packing with any value as offsets gives the file of its truth value except for the options byte, so the same file when int() and bool() agree. That a wrong type is always a TypeError, and that a pack which succeeds has made a file that can be unpacked, is false.", "quantifier": "all keyword arguments with values of any type; all data, metadata, chunk sizes, arguments and environments for packing", "why_tests_cant": "the tests try a handful of wrong values; unbounded combinations of arguments and types", "anchors": ["bloscpack/headers.py:check_range", "bloscpack/headers.py:_check_str", "bloscpack/headers.py:check_options", "bloscpack/headers.py:create_options", "bloscpack/headers.py:BloscpackHeader", "bloscpack/headers.py:MetadataHeader", "bloscpack/args.py:BloscpackArgs"]}
{"id": "C82", "title": "Damage to several bytes or bits", "statement": "If a chunk of an archive and its digest are replaced by any bytes (only the chunk's length field staying), unpacking gives the contents before the chunk and ChecksumMismatch if the digest does not match; otherwise the outcome is decided by decompressing what is there: an error of the decompressor after the same contents, or success with its output in the place of the chunk. With crc32 every change confined to 32 consecutive bits of chunk and digest is reported; with adler32 every change of at most two bytes less than 65521 apart. The same holds for the metadata, where changes of the padding do not count and nothing is written. Neither bound can be raised: adding the 33-bit generator anywhere leaves the crc32 as it was, exchanging two bytes exactly 65521 apart the adler32, and then the damaged chunk is unpacked without complaint if it decompresses.", "quantifier": "all archives, chunks, replacements and environments", "why_tests_cant": "there are 2^32 bursts at every position of unbounded files; tests flip a few bytes", "anchors": ["bloscpack/abstract_io.py:unpack", "bloscpack/file_io.py:_read_compressed_chunk_fp", "bloscpack/file_io.py:_read_metadata", "bloscpack/checksums.py:Hash"]}
{"id": "C83", "title": "What blpk --verbose prints", "statement": "With --verbose a command does to the files what it does without, and has the same result. Printed are the number of threads, that the command gets ready, the files it works on or overwrites, their sizes in both forms, the plan of chunks (a chunk size larger than the input being told of first), the length of metadata read and whether they were compressed, the size of what was written and the ratio of the sizes; then what is printed without --verbose; and 'done' at the end if and only if nothing was raised. A command that fails has printed a beginning of this, no shorter than what comes before the checks that can fail. A ratio has six decimals and is off by at most half a millionth and one part in 2^53. For an archive, append plans with the free space its header tells. That append's 'compression ratio' is, as that of compress, the original size over the stored one is false: it is the inverse.", "quantifier": "all commands, files, environments and numbers of threads", "why_tests_cant": "the tests look at the output of a few runs; the lines depend on every size, option and point of failure", "anchors": ["bloscpack/cli.py:main", "bloscpack/cli.py:process_compression_args", "bloscpack/cli.py:check_files", "bloscpack/cli.py:process_nthread_arg", "bloscpack/args.py:calculate_nchunks", "bloscpack/file_io.py:pack_file_to_file", "bloscpack/file_io.py:unpack_file_from_file", "bloscpack/file_io.py:_read_metadata", "bloscpack/append.py:append", "bloscpack/log.py:verbose"]}
{"id": "C84", "title": "Every command line", "statement": "A command line, however it is written - options abbreviated as long as no other begins so, single letters bundled, a value in the same argument (with or without '=') or the next, negative numbers and texts with blanks as words, files after '--' - is carried out if its options are in order and its files are as many as the subcommand takes and in one place, with the value given last for every option; no other command line has an effect on any file or succeeds. The first argument that stops (a bad value, -h or --version, -v with -d, an option lacking its value or given one it does not take) decides how the program ends; wrong numbers of files, an unknown or missing subcommand, and abbreviations of two options end it with 2, those of --version and --verbose even behind a subcommand that has neither. Every command line is carried out or ends with 0, 1, 2, IndexError or OverflowError with all files as they were. For options spelled in full this agrees with C73, and what one command line compresses another decompresses to the same contents.", "quantifier": "all lists of arguments, file systems and environments", "why_tests_cant": "the tests try a dozen command lines, nearly all spelled in full; the spellings are infinitely many", "anchors": ["bloscpack/cli.py:create_parser", "bloscpack/cli.py:main", "bloscpack/cli.py:_inject_blosc_group", "bloscpack/cli.py:process_nthread_arg"]}
{"id": "C85", "title": "When metadata counts as changed", "statement": "A rewrite of the metadata of an archive is refused as no change exactly for values Python calls equal to the stored one: numbers by their exact value whatever their type, that of a float being the double nearest to its text, ties to even (True, 1 and 1.0 are the same, -0.0 and 0.0 too, 1e+23 and 10**23 not), texts by their characters, lists with lists and tuples with tuples element by element, dictionaries regardless of order; a NaN equals nothing. Without NaN this is an equivalence relation, so writing back what was read is always refused, whatever the overrides. A tuple in place of a stored list is a change although the same bytes are written.", "quantifier": "all archives with metadata, all new values and overrides", "why_tests_cant": "the tests refuse one dictionary of texts", "anchors": ["bloscpack/append.py:_rewrite_metadata_fp", "bloscpack/append.py:_recreate_metadata"]}
{"id": "C86", "title": "Every byte of a packed file, and what the defaults are", "statement": "A file that packing returns consists of exactly the bytes the format prescribes for the data and the arguments: 'blpk', version 3, the two flags, the codes and little-endian numbers of the header; the metadata section with its own header, the stored text (compressed only if that is not longer), NULs up to the reserved room and the digest; the table with the position of every chunk and 0xff bytes for the reserve; the compressed chunks, each followed by the digest of its compressed bytes; nothing else. With no argument objects these are the documented defaults: 1 MiB chunks, blosclz, typesize 8, level 7, shuffle; offsets, adler32, room for ten times as many chunks; JSON, adler32, zlib at level 6, room for ten times the metadata. A file stays of this form through appends and metadata rewrites, up to unused room in the metadata section and bytes after the last chunk.", "quantifier": "all data, metadata and arguments; all histories", "why_tests_cant": "the tests compare single fields of a few files", "anchors": ["bloscpack/abstract_io.py:pack", "bloscpack/file_io.py:_write_metadata", "bloscpack/headers.py:BloscpackHeader.encode", "bloscpack/headers.py:MetadataHeader.encode", "bloscpack/defaults.py"]}
{"id": "C87", "title": "The comparison the tests rely on", "statement": "testutil.cmp_file returns normally exactly for two existing files of equal contents, fails its assertion for different contents and changes neither file. testutil.cmp_fp always ends, and compares what is left of two file objects from their positions on: two file objects that are at their ends compare equal whatever they hold (so that pack_unpack_fp in test_file_io.py, which does not seek back, verifies nothing). For readers that may deliver less than asked for, True means equal contents, but equal contents in different pieces fail the assertion.", "quantifier": "all file systems, file objects, positions and readers", "why_tests_cant": "the tests trust it", "anchors": ["bloscpack/testutil.py:cmp_file", "bloscpack/testutil.py:cmp_fp"]}
{"id": "C88", "title": "Metadata rewritten by several processes at once, and read meanwhile", "statement": "Any number of processes rewriting the metadata of one archive at the same time, each having read the archive or what other rewrites made of it, with their single-byte writes interleaved in any way (and some lost), leave every byte outside the metadata section as it was, at the same place; the size recorded for the metadata stays below the power of 256 that bounds the space set aside. Unpacking the result, or unpacking while they are at work with every read seeing a different mixture, gives exactly the packed bytes or raises having written nothing, as long as the recorded metadata size stays within the file. If every read sees one complete version, all with the same checksum and codec and no digest collides, the metadata returned are those of one version; without a metadata checksum they may be those of none (refuted).", "quantifier": "all archives, any number of rewriters, all interleavings, all sequences of views", "why_tests_cant": "the tests run one process", "anchors": ["bloscpack/append.py:_rewrite_metadata_fp", "bloscpack/file_io.py:_read_metadata", "bloscpack/file_io.py:unpack_bytes_from_bytes"]}
{"id": "C89", "title": "An independent reader, and what unpacking any byte string does", "statement": "For every byte string whatever, unpacking delivers exactly the bytes, and returns exactly the metadata or raises exactly the exception, that a reference reader gives which looks every field up where the description of the format has it: the header faults in their order, the metadata section with sizes that may reach beyond the end of the file or before its start, the offset table that must be there but is not otherwise used, and the chunks one after the other, each checked against its digest unless the file ends right before it.", "quantifier": "all byte strings, all behaviours of the decompressors and of json", "why_tests_cant": "the tests read a few damaged files and look for some exception", "anchors": ["bloscpack/file_io.py:_read_bloscpack_header", "bloscpack/file_io.py:_read_metadata", "bloscpack/file_io.py:_read_offsets", "bloscpack/file_io.py:_read_beginning", "bloscpack/file_io.py:_read_compressed_chunk_fp", "bloscpack/file_io.py:unpack_bytes_from_bytes", "bloscpack/headers.py:BloscpackHeader.decode"]}
{"id": "C90", "title": "What appending to, and rewriting the metadata of, any byte string does", "statement": "For every byte string whatever, rewriting its metadata and appending to it leave exactly the bytes, and return or raise exactly what, two reference functions give which are written down from the description of the format: which faults are noticed and in which order, which of checksum, codec and level of the new metadata are the old ones and that the space set aside stays, how much of the new data goes into the last chunk and where the further chunks, the header and the offset table are written. This includes what is left in the file when an exception is raised half way, for instance after the last chunk has been written.", "quantifier": "all byte strings, all new data and metadata, all arguments, all behaviours of the compressors and of json", "why_tests_cant": "the tests append to and rewrite a few well-formed files", "anchors": ["bloscpack/append.py:append_fp", "bloscpack/append.py:_rewrite_metadata_fp", "bloscpack/append.py:_recreate_metadata", "bloscpack/append.py:_seek_to_metadata", "bloscpack/file_io.py:_write_metadata", "bloscpack/file_io.py:_write_compressed_chunk", "bloscpack/file_io.py:_write_offsets"]}
{"id": "C91", "title": "What packing any bytes with any arguments does", "statement": "For all bytes, metadata and arguments whatever, packing leaves in the output exactly the bytes, and returns or raises exactly what, a reference function gives which is written down from the description of the format: the number and the sizes of the chunks, the space reserved for appending, the defaults of arguments that are not given, which faults in the arguments are noticed and in which order, when a metadata codec is struck out, and the offset table written last. This includes what has been written when an exception is raised half way, for instance by the compressor.", "quantifier": "all data, metadata and arguments, all behaviours of the compressors and of json that meet the contract of the trusted base", "why_tests_cant": "the tests pack a few inputs with valid arguments and read the result back with the same code", "anchors": ["bloscpack/file_io.py:pack_bytes_to_bytes", "bloscpack/abstract_io.py:pack", "bloscpack/args.py:calculate_nchunks", "bloscpack/file_io.py:_write_metadata", "bloscpack/file_io.py:CompressedFPSink", "bloscpack/headers.py:MetadataHeader"]}
{"id": "C92", "title": "What each command does to any files", "statement": "For all files there may be, with whatever contents, and all arguments of compress, decompress, append (of two different files) and info, the command ends as, and every file has afterwards the contents that, reference functions give: which mistakes are noticed in which order and with which exit status or exception, that nothing is touched before they are, which single file is written, and with what contents - also when the command fails half way, when a file is compressed or decompressed onto itself, and when the file to be decompressed, extended or shown is no archive at all. What info shows are the fields as they stand in the file.", "quantifier": "all files with any contents, all arguments, all behaviours of the compressors and of json (for compress: that meet the contract of the trusted base)", "why_tests_cant": "the tests run the commands on a few well-formed files and a few mistakes", "anchors": ["bloscpack/cli.py:main", "bloscpack/cli.py:check_files", "bloscpack/cli.py:process_compression_args", "bloscpack/cli.py:process_decompression_args", "bloscpack/cli.py:process_append_args", "bloscpack/cli.py:process_metadata_args", "bloscpack/file_io.py:pack_file_to_file", "bloscpack/file_io.py:unpack_file_from_file", "bloscpack/append.py:append"]}
{"id": "C93", "title": "What reading any byte string as an array, and packing any array, does", "statement": "For every byte string, unpacking it as a numpy array ends as a reference reader, written down from the description of the format and of the dictionary stored with an array, says: the same exception, or an array of that dtype, shape and order whose memory begins with exactly the delivered bytes and holds behind them what the allocator left there; more bytes than the array has room for are a write past its memory (MemoryFault in the model). For every array - any layout, any strides, any dtype - and all arguments, packing it leaves in the output exactly the bytes, and ends exactly as, a reference writer says: refused for its objects before anything is written, refused for its item size with header, metadata and empty table written, or its elements in order under its description. Through files it is the same, and no other file changes.", "quantifier": "all byte strings; all arrays with as many strides as extents, no negative extent or item size; all arguments; all behaviours of the compressors, of json, of ast.literal_eval, repr and numpy.dtype (packing: compressors and json that meet the contract of the trusted base)", "why_tests_cant": "the tests round-trip about thirty arrays that were just packed and try one wrong container", "anchors": ["bloscpack/numpy_io.py:pack_ndarray", "bloscpack/numpy_io.py:unpack_ndarray", "bloscpack/numpy_io.py:PlainNumpySource", "bloscpack/numpy_io.py:PlainNumpySink", "bloscpack/numpy_io.py:_conv", "bloscpack/numpy_io.py:_ndarray_meta", "bloscpack/numpy_io.py:pack_ndarray_to_bytes", "bloscpack/numpy_io.py:pack_ndarray_to_file", "bloscpack/numpy_io.py:unpack_ndarray_from_bytes", "bloscpack/numpy_io.py:unpack_ndarray_from_file"]}
{"id": "C94", "title": "An archive appended to itself", "statement": "Appending an archive to itself, whatever its reads see of what is being written meanwhile (each byte may be the one that was there or one that was written), is an append of as many bytes as the archive had: all of those before the last chunk, and as many as fit into the last chunk, are the bytes of the archive; the others are bytes it has or had while the append ran. Contents and metadata are then the old contents followed by these bytes, and the old metadata; if it fails the archive is as it was. The whole archive as it was is added when one read is enough or the reads see nothing new; otherwise the copy may end with the already rewritten last chunk.", "quantifier": "all archives (any history of packing, appending and rewriting), all arguments, all schedules of what the reads see, all compressors that meet the contract of the trusted base", "why_tests_cant": "no test appends a file to itself; what is read depends on two independent buffers", "anchors": ["bloscpack/append.py:append", "bloscpack/append.py:append_fp"]}
{"id": "C95", "title": "Metadata rewritten by processes that read while others write", "statement": "Any number of processes rewriting the metadata of one archive at the same time, each of their reads seeing any bytewise mixture of what has ever been there, with their single-byte writes interleaved in any way and any of them lost, leave the size, the header, the offset table and every chunk as they were, at the same place, and the recorded metadata size below the power of 256 that bounds the space set aside. Unpacking what is left, or unpacking while they are at work, gives exactly the packed bytes or raises having written nothing, as long as the recorded metadata size stays within the file. On a file at rest the rewriter of this model writes what the sequential one writes.", "quantifier": "all archives, any number of rewriters and of rewrites, all new metadata and overrides, all sequences of views, all interleavings", "why_tests_cant": "the tests run one process", "anchors": ["bloscpack/append.py:_rewrite_metadata_fp", "bloscpack/append.py:_seek_to_metadata", "bloscpack/file_io.py:_read_metadata"]}
{"id": "C96", "title": "The debug messages about chunks", "statement": "At the verbosity DEBUG, packing says for every chunk, in order, its number (marked as last for the last one only), the name and value of the checksum that is stored, or that there is none, and the sizes before and after compression; unpacking says for every chunk its blosc header, its number, the checksum if one was verified, and the sizes before and after. Appending says the blosc header of the chunk that is filled up, and for every chunk after it its number among the new ones and its checksum. A chunk that fails is the last one talked about, and only up to what failed. At the other verbosities nothing is said. The messages change neither what is written nor what is returned or raised. When an array is packed the size before compression is always given as 2 bytes.", "quantifier": "all data, arguments and metadata; all byte strings to unpack or append to; all arrays; all verbosities; all compressors that meet the contract of the trusted base", "why_tests_cant": "the tests run at the normal verbosity and never look at the messages", "anchors": ["bloscpack/abstract_io.py:pack", "bloscpack/abstract_io.py:unpack", "bloscpack/abstract_io.py:CompressedSink.do_checksum", "bloscpack/file_io.py:_read_compressed_chunk_fp", "bloscpack/numpy_io.py:PlainNumpySource", "bloscpack/append.py:append_fp"]}
{"id": "C97", "title": "The messages about the beginning of a file", "statement": "While the beginning of a file is read at the verbosity DEBUG, the raw bytes of the header and, if they can be decoded, its fields are printed; then the raw metadata header, its nine fields, the checksum of the metadata if one was verified, and their size, which is printed at the verbosity VERBOSE too; then the raw table of offsets and the offsets of the chunks in it. If reading fails, what was said is what comes before the failure: the fields of a header with another format version are still shown, the fields of one that is not valid are not. At the verbosity NORMAL nothing is printed. The messages change neither what is read nor what is raised. Together with the messages about the chunks this is everything printed while a byte string is unpacked.", "quantifier": "all byte strings; all verbosities; all decompressors and JSON decoders", "why_tests_cant": "the tests run at the normal verbosity and never look at the messages; the places where reading can fail are many", "anchors": ["bloscpack/file_io.py:_read_bloscpack_header", "bloscpack/file_io.py:_read_metadata", "bloscpack/file_io.py:_read_offsets", "bloscpack/file_io.py:_read_beginning", "bloscpack/abstract_objects.py:MutableMappingObject.__repr__"]}
{"id": "C98", "title": "The messages while a file is packed", "statement": "While a file is packed at the verbosity DEBUG the following is printed, in this order and nothing else: the arguments for blosc and for bloscpack, the arguments for the metadata if there are metadata, or that they are ignored if there are none; how the room for appended chunks was found, whether it had to be cut down, and what it is; the nine fields of the header and its raw bytes; whether compressing the metadata was of no use, the metadata as they are stored, their maximal size, their raw header, the number of preallocated bytes, their checksum and the size of the section; of each chunk what C96 says; and the number of offsets, the offsets, which are the places of the chunks in the file, and the raw table, if there is one. The bytes shown are the bytes written. If packing fails, exactly the messages before the failure are printed. At the other verbosities nothing is printed. The messages change neither what is written nor what is returned or raised.", "quantifier": "all data and chunkings; all arguments and metadata; all verbosities; all compressors and JSON encoders that meet the contract of the trusted base", "why_tests_cant": "the tests run at the normal verbosity and never look at the messages; the places where packing can fail are many", "anchors": ["bloscpack/abstract_io.py:pack", "bloscpack/file_io.py:_write_metadata", "bloscpack/file_io.py:_write_offsets", "bloscpack/file_io.py:CompressedFPSink", "bloscpack/headers.py:BloscpackHeader.encode", "bloscpack/args.py:_handle_max_apps", "bloscpack/args.py:MetadataArgs.effective_max_meta_size", "bloscpack/abstract_objects.py:MutableMappingObject.pformat"]}
