# Bloscpack in Rocq: design

Coq 8.16.1, standard library only.  Sources in `rocq/theories`, logical prefix `Verif`.

## 1. How the code is modelled

Every Python function of interest is transcribed branch by branch into a total Gallina function;
the comment on each definition cites the file and lines of /repo and says where it is simplified.

* `Env` also says whether file objects are files or io.BytesIO (`e_mem`): seeking to before the
  start differs.  The theorems hold for both.
* bytes are `list Byte.byte`; Python ints are `Z`; `struct` formats carry explicit range checks.
* exceptions are values: `res A = Ok a | Raise e`.
* an open file or BytesIO is a record `fp`: contents, position, and a ghost list of all
  single-byte writes in program order.  Code working on a file is `fp -> fp * res A`, so what has
  been written when an exception escapes is visible.  A crash point is a prefix of the write list.
* two processes on one file are interleavings of their write lists; a reader of a file under append
  sees, at each read call, any mixture of the bytes at different moments (`Overlap.v`).
* a file system is a function from path to optional contents (`Files.v`).
* JSON-like values are `pyval`; text is a list of code points.
* sources and sinks (`abstract_io.py`) are records of functions over a state type; `pack` and the
  unpack loop are written once and instantiated for files, memory and numpy.
* numpy arrays live in a memory (a byte at every address) with shape, strides and base address; the
  contiguity flags, `ascontiguousarray` and `empty` are modelled (`NumpyIO.v`).
* `float()`, `round(x, 2)`, `str()` of pretty.py are IEEE binary64 on integers (`Pretty.v`).

Model files contain no proofs: `Base PyVal Checksums Headers Pretty Args FileIO Append Files Cli
MemoryIO NumpyIO Objects Log Report Parser Embed Mix Reuse Stream Fault Dynamic Verbose Argparse Compare`.  Specification vocabulary that is independent of them: `Spec Archive Damage
Overlap Torn Stir Unprotected NumpySpec ObjectsSpec ReprSpec ReportSpec ReuseSpec DynSpec Repack VerbSpec ArgSpec EqSpec FormatSpec ReadSpec ReviseSpec WriteSpec CmdSpec ArraySpec Itself Churn ChatSpec OpeningSpec ClosingSpec` and the opening section of `PrettyProofs`.  Concrete instances of the oracles: `Toy`,
`ToyNumpy`, with an actual JSON writer/reader (`Json`) and Python literal writer/reader (`PyLit`).
`RepoTests` evaluates the model on the inputs of the project's own tests (`/repo/test`, `/repo/test_cmdline`): tests of the model's fidelity, not properties.
Proofs: `*Proofs`, `NumpyUnpack`, `NumpyMeta`, `NumpyAppend`.  Theorems: `Props*`; each is followed by
`Print Assumptions` and by an `Example` with concrete values meeting its hypotheses.

## 2. Code modelled, and not

| /repo/bloscpack | model | left out |
|---|---|---|
| `headers.py`, `constants.py` | `Headers.v` (all), `Objects.v` (`pformat`); arguments of any type `Dynamic.v` | attributes assigned after construction to values `__init__` would refuse |
| `checksums.py`, `metacodecs.py`, `serializers.py` | `Checksums.v`, `FileIO.v` | – |
| `args.py`, `defaults.py` | `Args.v` | messages of `log.debug`; callables have no side effects (they may raise) |
| `pretty.py` | `Pretty.v` | non-ASCII texts; the limit on the digits of `int()` in newer Pythons; `join_with_eol` |
| `abstract_io.py`, `file_io.py` | `FileIO.v`, `Files.v`; at any position of open files `Embed.v`; with sources and sinks of other kinds `Mix.v`; with the messages of the loops `Chatter.v`, with those of the beginning of a file `Opening.v`, with all those of packing `Closing.v` | deprecated aliases; `isinstance` tests (typing) |
| `append.py` | `Append.v`, `Files.v` (`append_file`, two different files); a file and itself `Itself.v`; a rewriter whose reads see changing contents `Churn.v` | – |
| `memory_io.py` | `MemoryIO.v`, `Mix.v` | – |
| `numpy_io.py` | `NumpyIO.v`, through memory `Mix.v` | deprecated aliases |
| `cli.py` | `Cli.v`, from parsed arguments on; with its output `Report.v`, with `-v` `Verbose.v`; the command line `Parser.v` (options spelled in full), `Argparse.v` (any arguments) | argparse is modelled as in Python 3.11 (other versions differ in `-f=x`, in `--` before the subcommand and in options between the two files); argparse's own output, help texts, messages at `-d` outside of `pack`, of reading the beginning and of the loops over the chunks (those: `Closing.v`, `Opening.v`, `Chatter.v`), what `-n` threads do in blosc (their number is printed, C83); `pprint.pformat`, `str(exception)` and the message about `-z` are an oracle (`Texts`); `str(OrderedDict)` as up to Python 3.11 |
| `abstract_objects.py` | `Objects.v` | values are None, bools, ints, text (printable ASCII), bytes |
| `log.py` | `Log.v` | output is a list of lines; standard error and output are one |
| `testutil.py` | `Compare.v` (`cmp_fp`, `cmp_file`) | making of arrays and temporary directories; `python -O` |
| `sysutil.py`, `util.py`, `version.py` | – | nothing that concerns files |

Other simplifications, each also stated at its definition:

* no directories, links or permissions; every non-empty path can be created; disks fill up only
  in C80, where what was given to `write` before the error is on the disk (buffers that are flushed later fail
  later, also with a prefix); writes are not reordered (the crash model is a prefix of single-byte writes in program order;
  `C26_any_order` and C68 allow any order).
* `fp.read(n)` returns what is there for every n < 2**63 and an OverflowError from there on (C72); in reality a
  huge n may also be a MemoryError.  Sizes read from files are below 2**31, but the size of an offset table is
  eight times a 63-bit count: only crafted headers reach this.
* writers that overlap (C57, C58): each has read what it needs (header, offsets, last chunk)
  before the other's first write; the 32-byte header is read and written in one piece.
* rewriters that overlap: C88 (each has read one complete version of the file) says which metadata can be read back;
  C95 (each reads any mixture, `Churn.v`) covers everything but the metadata.
* `open(.., 'wb')` truncates at once and the data arrives on close; only visible for in == out.
* `pyeq` compares numbers by exact value (a float is a repr, `float_value` its correctly rounded value).  Python's containers take the
  very same NaN object for equal; there is no such object here, since the value compared with is always freshly parsed.
* `numpy.empty` refuses with ValueError and never runs out of memory; a write by
  `decompress_ptr` past the array's own buffer, undefined behaviour in reality, is `MemoryFault`.

## 3. Trusted base

* Coq's kernel, including its `vm_compute` conversion (finite sweeps over one byte, witnesses).
* No axioms.  Every theorem in `Props*.v` is followed by `Print Assumptions`, and each answers
  "Closed under the global context".  The library axioms a whole-development scan may list
  (`Coq.ssr.ssrunder.Under_rel.*`) are the module-type parameters of Coq's own ssreflect library,
  loaded by the `lia` preprocessor; no theorem depends on them.
* The reading of the Python source (section 2).
* The contract `EnvOK` (`Spec.v`) of the code called but not in /repo, a hypothesis of the theorems
  that need it, satisfied by `toy_env` (`toy_env_ok`):
  * blosc.compress succeeds exactly on valid arguments and at most 2**31-17 bytes, adds at most 16
    bytes, and its 16-byte header holds the compressed and uncompressed sizes; decompress inverts
    it and refuses a buffer whose length is not the recorded one;
  * zlib.compress succeeds for levels 0..9 and decompress inverts it;
  * hashlib digests have their nominal sizes;
  * json.loads(json.dumps(m)) is m with tuples as lists (`norm`): true of values whose dictionary
    keys are strings and whose strings hold no lone surrogates.
* adler32 and crc32 are not oracles: they are computed in the model, and adler32 is proved equal to
  the RFC 1950 sums, crc32 to the remainder of a polynomial division (C52).
* The contract `NpOK N N' t` (`NumpySpec.v`): repr and literal_eval are inverse on the description
  of the dtype, and numpy.dtype(description) is the dtype again.  This is a hypothesis because it
  fails for some numpy dtypes (padded or aligned structs, titles); `toy_np_ok` satisfies it.
  `OldOK` is the same for archives written before 0.7.2.

* The contracts `NoExit E` (no function outside raises SystemExit or ChunkingException) and
  `TextsOK T` (messages of exceptions are not blank), hypotheses of C71 only; `toy_no_exit`,
  `toy_texts_ok`.

## 4. Reading the statements

* `archive E f x m` (`Archive.v`): the file `f` was made by a pack and any sequence of successful
  appends and metadata rewrites (not to null, see C50), and holds contents `x`, metadata `m`.
* `sizable` bounds the new contents of an append to what calculate_nchunks accepts.
* C15: when hostile metadata has max_meta_size < meta_comp_size the reader seeks back; the frame
  specification allows for it.
* C16 leaves out the 4-byte length field inside a chunk: damage there changes which bytes the
  digest is computed over.
* a property that is false of the code has a theorem ending `_refuted` with a concrete
  counterexample or, where possible, for all inputs, and beside it the strongest true variant;
  its manifest status is "partial" and the note begins with REFUTED.

## 5. Plan per property

| property | model part | proof |
|---|---|---|
| C01, C02, C11-C14 | `pack`, FP sink, `unpack`, FP source | closed form of the written file; invariant established by pack; unpack of any such file |
| C03-C05 | `calculate_nchunks`, `handle_max_apps` | Z arithmetic, case analysis |
| C06-C08, C42, C43 | headers | little-endian lemmas; finite sweeps where the domain is one byte |
| C09, C10 | `write_metadata`, `read_metadata` | closed form of the section, read lemma at any position |
| C15 | `unpack` on arbitrary bytes | induction over the chunk loop against a separate frame specification |
| C16, C17, C52 | adler32, crc32 | injectivity of the state transition; loop lemma |
| C18, C19, C20 | unpack on prefixes, crash states | prefix of closed form; induction on chunks |
| C21-C28, C50, C51 | `append_fp`, `rewrite_metadata_fp` | preservation of the invariant; induction over operation lists |
| C30-C33, C39-C41, C54, C55 | file-system level API, CLI | case analysis on top of the bytes-level theorems |
| C34-C37, C53 | ndarray with strides | index arithmetic by induction on the shape |
| C38 | memory sinks | induction on chunk list |
| C44 | `pretty` | decimal/binary rounding in Z |
| C45-C49 | small decision rules and refutations | case analysis, `vm_compute` witness |
| C47, C50 (general form) | `append_fp` on two files | simulation of the two runs (`AppendSim.v`, `ResignProofs.v`) |
| C59-C61 | damaged or rearranged archives | closed form of the file with other chunks or another header (`UnprotectedProofs.v`) |
| C66, C67 | append, pack | chunk list invariant strengthened by the Blosc arguments (`RepackProofs.v`, `SpaceProofs.v`) |
| C68 | metadata rewrite | byte-wise mixture of old and new file; the fields that fix the layout are the same in both (`Torn.v`, `TornProofs.v`) |
| C62-C65 | `log.py`, `abstract_objects.py`, argument dictionaries | invariants of objects; injectivity of decimal and repr texts (`ObjectsProofs.v`); a reader of Python literals (`ReprSpec.v`) gives printed values back |
| C69 | `CheckChunkSizeOption` | the integer literals as a relation, underscores by the characters around them (`PrettyProofs.v`, `OptionProofs.v`) |
| C70 | `unpack` on arbitrary bytes | counting in the frame specification of C15 (`DamageBound.v`) |
| C71 | `blpk` with its output (`Report.v`) | each branch against the model without output; which exceptions come out of each function; the report read back (`ReportProofs.v`, `ReportInj.v`) |
| C72 | all operations on arbitrary bytes | every branch that raises, with the fields of decoded headers in range (`ExcProofs.v`); packing with the state of the sink carried along (`ExcPack.v`) |
| C73 | command lines (`Parser.v`) | arguments are read as a list of options and words, once per parser; an invariant says that the namespace holds the last value of each option given so far (`ParserProofs.v`); both directions for whole lines (`ParserMain.v`) |
| C74 | packing and unpacking in the middle of open files (`Embed.v`) | file objects as (bytes before, bytes after, log); every step moves a border; with offsets the final seek is computed (`EmbedProofs.v`) |
| C75 | files, lists, memory and arrays in all combinations (`Mix.v`) | a source `feeds` and a sink `accepts` a list of chunks; one loop lemma for all pairs (`MixProofs.v`) |
| C76 | argument objects shared by several packs (`Reuse.v`) | the object after a step is a function of the step whether it raises or not; agreement with the object `pack` returns; induction over the row (`ReuseProofs.v`) |
| C77 | which metadata `PlainNumpySink` accepts; exceptions of the array operations | case analysis of `nps_new`; induction over nested lists for `conv`; the exception calculus of `ExcProofs.v`; reduction of `pack_ndarray` to `pack_bytes_core` (`NumpySink.v`, `ExcNumpy.v`) |
| C78 | append from a source that answers anything (`Stream.v`) | archives whose chunks need not have the announced sizes (`loose`); each step keeps them or makes a header that is refused; a relation between programs and the answers they consume shows that every source is covered (`StreamProofs.v`) |
| C79 | pack from a source that answers anything (`Stream.v`) | the invariant of C78 established by pack; for failures, the loop up to the piece that fails and what a truncated body unpacks to (`StreamProofs.v`) |
| C80 | errors at any step or inside any write; disks with limited room (`Fault.v`) | programs as trees with the writes visible, proved equal to the earlier definitions; by induction over the tree an error leaves a prefix of the single-byte writes, then C19, C26 and C68 (`FaultProofs.v`, `DiskProofs.v`, `FaultCases.v`) |
| C81 | header arguments of any type, any value as `offsets` of a pack (`Dynamic.v`) | the constructors as a list of demands; decimal digits read in base 2; a simulation between two packs whose files differ in byte 5 (`DynProofs.v`, `DynPackProofs.v`, `DynIntProofs.v`, `DynTwin.v`) |
| C82 | chunk and digest replaced by anything; `bit`, `close_bits` (`Burst.v`) | the file cut around one chunk; crc32 as a linear shift register with trivial kernel, whose state after data and right digest is constant; adler32 by its two sums and gcd with 65521 (`BurstProofs.v`) |
| C83 | the messages each command has to tell, from the files before and after (`VerbSpec.v`); a decimal fraction read back | every function between `cli.py` and the file pointers relates its run with messages to the one without, at both verbosities (`VerbProofs.v`); rounding twice (`RatioProofs.v`) |
| C84 | every way to write options, values and files, and what stops a command line (`ArgSpec.v`) | the classification of arguments in terms of names and prefixes (`ArgProofs.v`), one option argument against its spellings (`ArgOptions.v`), the loop of argparse against whole lines (`ArgLoop.v`, `ArgMain.v`, `ArgRefuse.v`); agreement with C73 (`ArgSame.v`) |
| C85 | Python's equality on metadata values, exact on numbers (`EqSpec.v`) | rounding to the nearest double, existence and uniqueness (`RoundProofs.v`); the literals and their values (`FloatProofs.v`); `pyeq` against the relation and its laws (`EqProofs.v`); the front of `rewrite_metadata` (`EqMain.v`) |
| C86 | a writer of the format of its own (`FormatSpec.v`); digests by their defining equations | `packed` of C01 against it, chunk by chunk; the invariant of `archive` for later histories (`FormatProofs.v`) |
| C87 | the rounds of the loop over any pair of read methods (`Compare.v`) | induction on what is left of the first file; on the rounds for arbitrary readers (`CompareProofs.v`) |
| C88 | metadata rewrites, reading | the family of files that rewrites make (`Stir.v`); all have the same layout, so a bytewise mixture of any of them does; reads of changing contents one by one (`StirProofs.v`) |
| C89 | all of reading, any bytes | a reader without a file position, written from the description of the format (`ReadSpec.v`); no contract on the oracles is used |
| C90 | `append_fp`, `_rewrite_metadata_fp`, any bytes | two functions from a byte string to a byte string (`ReviseSpec.v`); no contract on the oracles is used |
| C91 | packing, any bytes and arguments | a function from the arguments to a byte string (`WriteSpec.v`); sizes given as text are read by `reverse_pretty` (C44) |
| C92 | the commands, any files | a function from the files to the one change of contents and the outcome (`CmdSpec.v`), from the functions of C89-C91; the text given to -z is read by the option (C69) |
| C93 | arrays, any byte string and any array | functions from bytes to the array or the exception and from the array to the bytes left and the outcome (`ArraySpec.v`), from the functions of C89 and C91 and the dictionary of an array |
| C94 | an archive appended to itself | reads shown arbitrary files (`Itself.v`); the answers, put one after the other, are a file whose append does the same (`ItselfProofs.v`), with the invariant of C78 for what can have been written meanwhile |
| C95 | metadata rewrites, reading | all files that differ from the archive only in the metadata section and its size fields are closed under the writes of a rewriter that read such files, and under mixtures (`Churn.v`, `ChurnProofs.v`); then as C88 |
| C96 | messages about chunks at `-d` | what is said of the chunks, from the pieces and from the places in the file (`ChatSpec.v`); each loop with messages relates to the one without (`ChatProofs.v`), by the lemmas of C89, C90 and C91; that the sizes shown are right is `_refuted` for arrays |
| C97 | messages about the beginning of a file at `-v` and `-d` | what is said of header, metadata and offsets, from the places in the file, each message with its verbosity (`OpeningSpec.v`); every step with messages relates to the one without (`OpeningProofs.v`) |
| C98 | everything said at `-d` while a file is packed | arguments, room for appended chunks, header, metadata section, chunks and table of offsets, from the arguments and the reference for the bytes of C91 (`ClosingSpec.v`); every step with messages relates to the one without (`ClosingProofs.v`) |
| C56-C58 | write lists, reader over any object | bytes no write touches; commuting single-byte writes (`OverlapProofs.v`, `LiveProofs.v`) |

## 6. Findings (true of the code, each with a theorem)

* append never compares the digest of the last chunk and re-signs damaged data (C47; for every
  archive and every such damage in `C47_append_signs_damage`).
* after rewriting metadata to null, append writes the offset table over the metadata section (C50; for
  every archive in `C50_null_append`).
* appending to an archive of an empty input always fails; appending an empty file by name divides
  by zero after the (content preserving) change (C51).
* a crash between writing the chunks and the header of an append leaves a file that unpacks to a
  mix of old and new contents without an error (C26; for every append in `C26_silent_mix`).
* an interrupted metadata rewrite may leave a file that neither unpacks nor can be rewritten, or,
  without a metadata checksum, one that unpacks with a mix of old and new metadata; the chunks
  are never touched (C68).
* `-z infB`, `-z 1e309T` and an empty `-z` are not refused but end in tracebacks (C69).
* two overlapping appends: the last writer silently wins, or the file becomes unreadable (C57).
* a file cut exactly before its last digest still unpacks, the last chunk unverified (C18).
* nchunks = -1 unpacks to nothing without an error (C48).
* when metadata compression does not pay, the level is stored and the caller's object changed (C49).
* pack_file_to_file truncates the output before validating its arguments (C32); in == out loses the
  data silently (C33).
* unpack_ndarray neither checks for overrun nor for a short file (C36); zero-byte items divide by
  zero (C35); titled fields of old archives are rebuilt wrongly (C53).
* `blpk append -m` on an archive without metadata section appends and then fails (C55).
* appending to a file that holds an array makes unpack_ndarray write past the end of the array (C59).
* chunks can be exchanged, and chunks cut off by lowering the count in the header, without an
  error: digests cover single chunks, and nothing covers the header (C60, C61).
* packing with offsets (the default) into the middle of an open file writes the offsets over the bytes
  of the surrounding file and leaves -1 in its own table (C74).
* a list packed to a file without offsets loses, silently, what is beyond the announced number of
  chunks; a list that is too short makes a file that fails only when unpacked (C75).
* damage that exchanges two bytes of a chunk 65521 apart (adler32), or adds the 33-bit generator (crc32), is not
  noticed; everything within 32 bits (crc32) or two bytes closer than that (adler32) is (C82).
* `blpk append -v` prints as 'compression ratio' the stored size over the original one, the inverse of what
  `compress -v` prints (append.py:222, file_io.py:470; C83); the message for an empty input (args.py:183)
  stands behind a `return`.
* `BloscpackArgs(offsets=10)`, `'0'` or `0.5` is accepted and packs a file that cannot be unpacked (C81).
* argument objects used again: byte strings packed after an array get its item size (and are refused
  after an array with items over 255 bytes, which is itself refused); once metadata did not shrink, the
  codec stays off for all later files, also if that pack failed (C76).
* if the file being appended shrinks meanwhile, append succeeds with the announced size in the header;
  the next append can then succeed and leave a file whose header is refused.  If a read fails, the part
  read first stays in the file although append raised, and is there twice after a repetition (C78).
* An input that shrinks between `getsize` and the reads is packed without complaint: the header counts bytes that are not
  there, and a later append to the archive can leave it unreadable (C79).
* appending an archive to itself succeeds, but the copy added may end with the last chunk as the append
  had already rewritten it (C94).
* an append that fails because the disk is full may leave the old contents unreadable, or a file that unpacks with part of
  the new contents; repeating the append then stores that part twice (C80).
* log.set_level has no effect (C62); update of an argument object is not atomic, and assignment to
  a header is not validated (C64); append fills in the dictionary of the caller, so that a second
  file is appended to with the type size of the first (C65).
* `testutil.cmp_fp` compares from the positions of the two file objects: the project's round trip test over file
  objects (`pack_unpack_fp`, test_file_io.py:227) compares them at their ends and passes whatever was unpacked (C87).
* packing an array at DEBUG reports every chunk as `in: 2.0B (2B)`: a chunk of an array is a tuple of an
  address and a number of items, and its length is shown (C96).
* reading metadata without a checksum during a rewrite can give metadata that were never stored: the size of the old
  cuts a prefix off the new (C88).
