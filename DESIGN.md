# Formal model of openssh_key_parser

The subject is `/repo/openssh_key` (Python). The model is in `rocq/theories`, in
Gallina; the properties are those of `properties.jsonl`; `MANIFEST.json` maps each
property to theorem names.

## 1. Approach

* The code is modelled function by function as total Gallina functions
  (shallow embedding). Every definition cites the file and lines it models.
* Python exceptions are values: `res A = Ok a | Err e`, where `e : exn` names the
  Python class. `except` clauses are pattern matches. Warnings and passphrase
  prompts are an ordered event log returned beside the result (writer monad).
* `io.BytesIO` is a record (buffer, position) threaded through the stream
  functions, also on the failing paths.
* Python `bytes` = `list byte`; `str` = list of code points (`list N`);
  `int` = `Z`; dicts = association lists in insertion order.
* Class-based dispatch (MRO, `super()`, `__subclasses__`) is modelled by a finite
  class table whose C3 linearisation is computed by the model.
* Cryptographic primitives (block ciphers, ChaCha20 key stream, Poly1305, GHASH,
  bcrypt-pbkdf, elliptic-curve decoding) are a record parameter. The modes of
  operation, key/IV slicing, tag handling etc. around them are modelled. Whatever
  is assumed about a primitive is a hypothesis in the theorem that uses it
  (e.g. "block decryption inverts block encryption"), never an axiom, and a
  concrete instance shows that the hypotheses can be met.
* Randomness (`secrets`), `getpass`, key generators are parameters; theorems hold for all
  of them.
* Loops with data-dependent bounds use fuel; exhaustion is a distinct error
  that theorems prove unreachable.

## 2. Specification

`Spec*.v` holds small definitions that do not mention the model: RFC 4251 data
types as relations between values and bytes, field tables of each key type
copied from the RFCs / PROTOCOL files (not from the code), the openssh-key-v1
layout, map semantics of certificate options, and so on.

## 3. Plan per property

| id | modelled | proof |
|----|----------|-------|
| C01, C02 | BytesIO read, read_fixed_bytes | case analysis on lengths |
| C03-C06, C15 | read/write_from_format_instruction, to_bytes/from_bytes | induction on byte lists, arithmetic on powers of 256; C05 refuted by witness plus exact characterisation |
| C07 | strict UTF-8 codec | case analysis on code point ranges, induction |
| C08-C11 | dict reads and writes | induction over the format; relational RFC 4251 spec, both directions |
| C12-C14 | repeated reads/writes | induction over records; C13/C14 refuted by witness plus exact characterisation |
| C16 | check_dict | induction over the format |
| C17-C23, C42 | Key, PublicKey, PrivateKey, class table, factories | record lemmas + finite case analysis over key types |
| C24-C29, C33-C35, C38-C40 | PrivateKeyList.from_bytes/pack_bytes | composition; from_bytes totality by the structure of the try block |
| C30-C32, C41, C43 | from_string/pack_string, base64, splitlines, split | induction over lists, decoder state invariant |
| C36, C37 | ciphers, modes, KDF slicing | xor involution, CBC induction over blocks |
| C44-C50 | certificate accessors and validation | induction over option lists, sortedness; nesting by measure |
| C51 | flags | Z bit lemmas, induction over call sequences |
| C52 | Ed25519 checks | case analysis |
| C53 | generate | from C17/C19 lemmas |
| C54 | `__eq__` | mapping equality is extensional |
| C55 | `__main__` | induction over lines; refuted by witness |
| C56 | convert_from/convert_to | class recursion; external key objects as abstract records |
| C57 | key and key list parsing, all exceptions | every error path is tracked; set of raised classes by induction over the format |
| C58, C59 | PrivateKeyList.from_bytes against PROTOCOL.key | relational specification of a file; soundness, completeness, uniqueness of the parse; repacking |
| C60 | named certificate option accessors | table of OpenSSH's option names; one is refuted by witness |
| C61, C62 | check_params_are_valid along the class hierarchy | events and errors computed per class, compared with the field table |
| C63 | get/set_valid_after/before | map laws; packing changes exactly eight bytes |
| C64 | PrivateKeyList.from_list | iff between success and an independent description of good elements |
| C65 | `__main__` printing: KeyJSONEncoder and json.dumps(indent=4) | relational JSON grammar; the output is in it, determines the keys, and is unambiguous; a relational layout of values in lines |
| C66 | line endings in armored and public key text | splitlines is invariant under the choice of line ending |
| C67-C69 | PrivateKeyList as a collections.UserList: slices, in-place edits, derived lists, histories of operations | relational list specification; induction over histories |
| C70 | assignment to entries of a key's dictionaries, then packing and parsing | wire round trip with one field replaced |
| C71 | generate_private_params with keyword arguments; the generator is an argument | lookup of the generator along the MRO, computed per family; the request is determined by a separate relation `asks` |
| C72 | pack_bytes of two lists | the layout theorem (C25) for both, then functionality of each part of the file |
| C73 | from_bytes, then pack_bytes of a selection, then from_bytes | round trip (C24) for keys that were parsed; canonical encodings exist and are no longer than the parsed ones |
| C74 | pack_signed_bytes | prefix-freeness of records (C10); refuted across types by two certificates that both parse |
| C75 | generate, from_list, pack_bytes, from_bytes, convert_to | composition of C71, C64, C56 |
| C76 | PublicKey.from_bytes, get_signature_key | induction on the number of calls; least size of a certificate record; a family of nested certificates attains the bound |
| C77 | check_params_are_valid of every class | the checks of each class computed and compared with a table; logs of each check |
| C78 | object identity: constructors, from_list, UserList methods, copy.copy over a heap of objects | invariant over all histories: every key owns its four dictionaries and every list its sequence; refinement of the pure list operations |
| C79 | PrivateKey.from_bytes, PrivateKeyList.from_bytes and from_string run on two inputs that differ only in secret contents | relational proof: reads depend only on the unread bytes; related streams give related values; every check gives the same result on related values; `_refuted` for the one comparison that does depend on a secret |
| C80 | read/write_from_format_instruction and the dictionary check with any struct format string | relational grammar of format strings and layouts (SpecStruct.v); the parser accepts exactly the grammar; reads and writes are exactly the layout relations |
| C81 | the command, from the file's bytes to the printed text, on files written by pack_string and pack_public_string | written lines as a relation (SpecMain.v); composition of C24, C31, C32, C55, C65; induction over the lines |
| C82 | every function that can warn, again, with `warnings.warn` raising the warnings of an arbitrary set (Strict.v) | two-run relation (SpecStrict.v: same run, or stopped at the first raised warning); one lemma per function, induction over fuel, records, lines and keys |
| C83 | AES, 3DES, ChaCha20, Poly1305, GCM, SHA-512, Blowfish and bcrypt_pbkdf, decoding of points, from their standards (Std.v) | round structure inverted step by step (Feistel; SubBytes, ShiftRows, MixColumns over GF(2^8) by linearity), exhaustive check of byte functions; then the theorems with premises about primitives are instantiated (C24, C37, C73) |
| C84 | the order of the steps of pack_bytes and from_bytes before the prompt; the class lookups | the log is followed through the sequence of steps (`In Prompt` of a bind), both directions; unsupported names as corollaries |
| C85 | the command with int.__repr__ limited to a number of digits (JsonLimit.v) | the limited encoder equals the other if all integers are short, by induction over JSON values; number of digits against powers of ten; the integers of the value are those of the keys (C65) |
| C86 | class statements, C3 linearisation, attribute lookup, the descriptor readonly_static_property and assignment (Objects.v), and the library's class statements (Library.v) | lookup as first definition along the MRO; extensionality of evaluation in lookup; MRO of a class with one base; the library by evaluation, for all its classes |
| C87 | ABCMeta's computation of `__abstractmethods__`, is_abstract (Objects.v, Library.v) | soundness and completeness of C3 merging by induction; an invariant of worlds made by class statements; the first definition in an MRO is the first in the MRO of a base that contains its class |
| C88 | `__main__.py`:13-20 and the part of argparse it uses: classification of arguments, abbreviations, negative numbers, '--', consumption of options and the positional argument (Cli.v) | a grammar of command lines (SpecCli.v); soundness and completeness of the parser for it by induction on the number of arguments; `str.isdecimal` is a parameter of which only '.' and newline are restricted |
| C89 | nothing new: pack_bytes, from_bytes, the modes of operation (PrivateKeyList.v, Crypto.v) | two runs of pack_bytes, related by the layout theorem C25; a changed file through the characterisation of from_bytes in C58; the key stream is a function of the derived material (SpecReuse.v, Props_Reuse.v) |
| C90 | nothing new: the prompt is a parameter that answers or raises (PrivateKeyList.v) | every step before the prompt emits no prompt, and the sequencing operators stop at the first exception (Props_Prompt.v) |
| C91 | the writing methods once more, as runs that an exception from outside ends between two operations on the stream (Interrupt.v) | induction over fields and records; the characterisation of repeated reads in C13 |
| C92 | nothing new (as C89) | as C89, with CBC taken block by block: encryption of a block is injective and onto by what is assumed of the primitives (SpecReuse.v, Props_Cbc.v) |
| C93 | pack_bytes once more, as a run that looks at the objects of the heap (C78) one access after the other while their history is arbitrary (Threads.v); copying the options in their constructor and indexing a list are one access each | a computation whose accesses all see the same values has the result of the sequential function; commands that do not disturb keep what is looked at (invariants of C78); inversion of a run that returns (SpecThreads.v, ProofThreads.v, Props_Threads.v) |
| C94 | the methods of a stream once more, as programs that do one operation on the stream after the other, and threads that take turns (Shared.v); read_repeatedly… is left out | each method alone is the one of Stream.v (induction); a schedule of one-operation calls is rearranged into a sequence of calls (induction over the schedule; SpecShared.v); the writes of a thread are the fields of its records (Props_Shared.v) |
| C95 | the comparison operators of pairs, tuples and lists, with tuple.__ne__ inherited by pairs; in, count and index (Compare.v); that Python takes an object to equal itself without asking adds nothing, since equality of keys is reflexive (C54) | equality reduced to that of mappings (C54), search and order by induction over the lists, packing step by step with C69 (SpecCompare.v, Props_Compare.v) |
| C96 | seek, tell and truncate of io.BytesIO with the limits of C integers, on the stream of C01; histories of all operations on one stream, which go on after exceptions (Seek.v) | a read that succeeds looks at no byte outside those it passes over and a write is a replacement of bytes, both by induction over formats; histories by induction; independence of order by commuting replacements (SpecSeek.v, ProofSeek.v, Props_Seek.v) |
| C97 | the methods that PascalStyleDict inherits from UserDict and MutableMapping, those of dict for header, footer and clear, and programs of them on the parts of a key (Mapping.v) | effects on entries and order from the list representation; invariants by induction over programs; packing through the fields of the table of key types (SpecMapping.v, Props_Mapping.v) |
| C98 | copy.copy and copy.deepcopy of keys and lists and assignment to their attributes, over the heap of C78 (Alias.v; DeepCopy in Heap.v) | the invariant of C78 without ownership of the dictionaries of keys, kept by every command; a set of objects that only refer to each other and are not changed shows the same after any program (SpecAlias.v, Props_Alias.v) |
| C99 | the parsers with a counter of BytesIO.read (Work.v), every function from read_fixed_bytes to PrivateKeyList.from_bytes | the counted parsers have the results of the parsers (by congruence of the monads); a potential argument: reads are paid for by the bytes taken, certificates by the 100 bytes that each has at least, induction on the nesting (SpecWork.v, ProofWork.v, Props_Work.v) |
| C100 | nothing new: the results of from_bytes of keys and lists | a relation that says how many bytes a value needs (SpecSize.v); each value fits into its encoding, records and files are concatenations of encodings (C09, C58), decryption does not lengthen (Props_Size.v) |
| C101 | the texts of all warnings, the statements that issue them, and warn_explicit of Python's warnings module with its registries (Shown.v) | an invariant that says what the registries hold after a history, then induction over histories (SpecShown.v, Props_Shown.v); texts with a number are told apart by the specification of decimal notation (SpecRepr.v); for the command with C55 |
| C102 | packing as modelled for C24 and C25 | a relation between field types, values and exceptions (SpecRaise.v); induction over the format for the first fault; for lists a case for each stage of packing, and each cause excluded from a run that succeeds; the order of the causes by composing, over the binds of pack_bytes, the lists of checks that describe each step (Props_Raise.v) |
| C103 | parsing as modelled for C12, C16 and C21 | a relation between field types, bytes and exceptions (SpecUnread.v); induction over the format for the first unreadable field; for certificates induction on the length of the bytes, since the authority's key is shorter (Props_Unread.v) |
| C104 | b64decode as modelled for C43 | the accepted texts and their bytes by prefixes, numbers and quotients (SpecBase64.v); an invariant between the decoder's state and the text read so far, by induction on what is left; the outcome is unique (Props_Base64.v). The specification was also compared with CPython's base64.b64decode on 200 000 random texts |
| C105 | PrivateKeyList.from_string, Key.from_string and the reading part of __main__ as modelled for C30, C42 and C55 | the accepted texts and what the others raise, by the specifications of C58, C103 and C104 only (SpecAccept.v); composition of their theorems, lengths bounded by the text, induction on the lines of the file (Props_Accept.v) |

Properties the code violates are kept with their full statement; the theorem with
suffix `_refuted` proves the violation and the theorem with suffix `_partial`
(or an exact characterisation) proves what does hold.

## 4. Trusted base

**Checked by.** Coq 8.16.1's kernel (`coqc`), and `coqchk` over all compiled files. Only the
standard library is imported. There are no axioms, no `Admitted`, no functors, no plugins and
no switched-off checks in `rocq/theories`.

**Print Assumptions.** Every `Props_*.v` ends with `Print Assumptions` for each of its theorems;
each answers `Closed under the global context`. `coqchk` lists seven declarations
`Coq.ssr.ssrunder.Under_rel.*` of the standard library, which are loaded by `lia` (through
`Zify` and `ssreflect`); no theorem depends on them.

**Trusted, not proved.**

1. That the definitions in the model files (5.1) say what the cited Python lines do. As a test of
   this, Suite.v transcribes the expectations of the project's own unit tests for streams, keys,
   key derivation, the factories, parameter validation and certificates; all hold of the model.
2. That the Python runtime behaves as the model of it: `struct`, `int.to_bytes/from_bytes`,
   the UTF-8 codec, `base64`, `str.split/splitlines`, `io.BytesIO`, `dict`, `UserDict`,
   `UserList`, C3 method resolution, `json.JSONEncoder`, `str(bytes)`. All of these are
   written out in the model (not assumed), from the CPython 3.8-3.11 documentation and sources.
   `tools/runtime_check.py` compares them with CPython 3.11's standard library on random cases
   (about 7,900 per seed; no difference in the seeds tried); `tools/argparse_check.py` does the same for
   argparse (about 4,600 command lines per seed). This is a test, not a proof.
3. That the specification files `Spec*.v` and the theorem statements say what the English says.
4. For C83 only: that Std.v and StdTables.v say what the standards do. Props_Std.v proves the S-box and
   the GF(2^8) products from their definitions, the SHA-512 constants from roots of primes, its padding, the
   way bcrypt_pbkdf combines hashes, and the points from the equations of the curves, and has published test
   vectors as examples.
5. That `cryptography` and `bcrypt` compute what the standards say. As a test of items 1, 4 and 5,
   `tools/openssh_check.sh` extracts the model and runs it against OpenSSH 9.6: keys and
   certificates of all types, and files with all ten ciphers, are read without warnings and give the same public
   lines, and `ssh-keygen` reads what the model writes. The encrypted file in README.md is decrypted
   and gives the JSON shown there, except for the difference listed in 5.3.

**Parameters instead of assumptions.** What is outside the repository and is not computed by the
model is a function argument, and theorems hold for every value of it:

| record | contents |
|---|---|
| `prims` (Crypto.v) | bcrypt_pbkdf; AES and 3DES block functions; ChaCha20 and AES-GCM key streams; Poly1305 and GCM tags; EC point decoding |
| `env` (PrivateKeyList.v) | random salt and check number, the typed passphrase |
| `ext` (Convert.v) | accessors and constructors of `cryptography` and PyNaCl objects |
| `clock` (Dates.v) | `datetime.fromtimestamp`, `int(datetime.timestamp())` |
| generators (Key.v, Generate.v) | results of `rsa.generate_private_key` and its like |

A theorem that needs a fact about a primitive (block decryption inverts block encryption, tags have
16 bytes, the derived key has the requested length, ...) has it as a visible premise, and the
example beside the theorem instantiates it with a concrete primitive. C83 discharges these premises for the
algorithms of the standards.

## 5. Status

### 5.1 What is modelled

| repository file | model file | modelled | left out |
|---|---|---|---|
| pascal_style_byte_stream.py | PyBase, IntBytes, Utf8, StructFmt, Stream, Seek, Mapping | every method of PascalStyleByteStream, PascalStyleDict, and the classes of format instructions | struct codes for floats (e f d) and '?' in native mode, whose reading is undefined in C for bytes other than 0 and 1 (observed with CPython 3.11: the low bit decides); the texts of exceptions other than the end-of-stream messages (C02) |
| key_params/factory.py, common.py, rsa.py, dss.py, ecdsa.py, ed25519.py, sk.py | Classes, Key, Convert, Generate | class table, MRO, format instructions, factories, validation, flags, generation with keyword arguments, conversions | docstrings, type annotations |
| key_params/cert.py | Classes, Key, Dates | fields, option encoding, named options, principals, signature key, signed bytes, validity times, nested validation | recursion limit (5.3); sub-second rounding of float timestamps |
| key.py | Key, PrivateKeyList, Heap, Alias | PublicKey and PrivateKey: constructors, from_bytes, from_string, pack_*, generate, `__eq__`, properties; which dictionaries are shared, also after copying and assignment to attributes | assigning to `params` something else than the params of a key |
| cipher/*.py | Crypto | key/IV slicing, CTR, CBC, GCM and ChaCha20-Poly1305 composition, tags, block sizes, factory | that `cryptography` computes the modes as its documentation says; its own argument checks other than lengths |
| kdf_options/*.py | Crypto | option formats, generation, derive_key | |
| private_key_list.py | PrivateKeyList, UserList, Heap, Alias, Compare | from_bytes, from_string, from_list, pack_bytes, pack_string, every warning, override mappings; inherited list operations, comparison and search; which key objects and dictionaries lists share | keys of `sort` that are not integers (by C67_sort_any_keys integers can stand for keys of any type with an order; an order function that raises or is inconsistent is left out); assigning to attributes of a list other than `header` and `kdf_options` |
| `__main__.py` | PrivateKeyList, Repr, Json, JsonLimit, Cli | the command line, as parsed by the argparse of Python 3.11.10 (C88), reading, recognising and parsing the text, JSON output, with and without the int-to-str digit limit of Python 3.11 (C85) | the texts of usage, help and error messages; the file system (a parameter: contents or exception for each name) |
| (calls of `cryptography` and `bcrypt` in the above) | Std, StdTables | AES, 3DES, ChaCha20, Poly1305, GCM, SHA-512, bcrypt_pbkdf, decoding of points on the NIST curves, as functions from bytes to bytes (C83) | RSA, DSA and EC arithmetic behind the conversions and generators |
| utils.py | Objects, Library, Classes | is_abstract, readonly_static_property, on arbitrary hierarchies of classes and on the library's | attributes of metaclasses, deletion of attributes, `__getattr__` |

Python's `bool` values are represented by the integers 0 and 1. A warning is an event of the model: one
call of `warnings.warn`; which of them are then shown is in Shown.v (C101), for filters whose action is the same for all warnings of the library. Filters that turn warnings into exceptions (`-W error`) are: Strict.v has the functions that can warn once more, over runs that can end with a raised warning (C82); warnings of other packages are not modelled.
User-defined subclasses of the library's classes (except in C86 and C87), threads, memory exhaustion and signals are not
modelled, except that writing to a stream can be interrupted between any two operations on it (C91), that pack_bytes of a list can run while other threads change objects (C93) and that threads can share a stream (C94). Exceptions are identified by class, together with the values their texts and attributes show:
the bytes of a UnicodeDecodeError, the missing key of a KeyError, the remainder of an EOFError. Texts that are constant, or that name only a
type, a position or a length, are modelled only where a property mentions them. Warnings are modelled with their kind and the data they mention.

### 5.2 Per property

`MANIFEST.json` names the theorems. "Proved" means the full statement of `properties.jsonl` is
proved for all inputs. "Partial" means the statement is false of the code: a `_refuted` theorem
shows it, and `_partial` theorems say how much holds.

| id | status | why partial |
|---|---|---|
| C05 | partial | integers v with -2^(8k) < v < -2^(8k-1) are refused with OverflowError; proved to be exactly these |
| C13 | partial | a record cut off before a field or right after a length prefix is silently dropped; the accepted streams are characterised exactly |
| C14 | partial | a format of size zero makes repeated reads loop forever; termination proved for all others |
| C40 | partial | bytes after the ciphertext and inside the KDF options field are ignored; everything else in the file matters |
| C50 | partial | an authority key of unknown type raises KeyError and names that are not UTF-8 raise UnicodeDecodeError; proved to be the only cases |
| C53 | partial | the public half also holds the private parameters; everything else is proved |
| C55 | partial | a line without a space or with an unknown key type aborts the command; the exact set of aborting lines is proved |
| C60 | partial | `permit-X11-forwarding` is written `permit-x11-forwarding`; the other eight names are right |
| C68 | partial | slices and copies of an encrypted list are packed unencrypted |
| C74 | partial | the signed bytes do not contain the key type: an RSA certificate and a security key certificate can have the same ones; proved for certificates of the same type |
| C81 | partial | a line boundary in a comment splits the line, so that a comment can add keys; proved for comments without line boundaries, and what happens otherwise is characterised |
| all others, C01-C105 | proved | |

### 5.3 Findings about the code (each is a theorem named `..._refuted` unless noted)

* Negative integers whose magnitude uses the top bit of its first byte cannot be written as MPINT, except -2^(8k-1) (C05).
* `struct.pack` pads or cuts byte fields of the wrong length silently (C08).
* Repeated reads drop a truncated last record (C13) and loop on empty formats (C14).
* A parsed key can pack to other bytes, or raise, if its MPINTs were not minimal (C20).
* `from_string('')` raises IndexError instead of ValueError (C30).
* A list made with `from_list` for bcrypt without options cannot be packed with `retain_kdf_options_if_present` (C39).
* Bytes after the ciphertext are not checked (C40).
* The comment of a parsed public key line keeps the newline (C41).
* `pack_signed_bytes` omits the key type that OpenSSH signs (C48), so certificates of different types can have the same signed bytes (C74).
* Constructing a certificate can raise because of its contents, and truncated lists of principals go unreported (C50).
* The public half of a generated pair holds the private parameters (C53).
* Some bad lines abort the command instead of being skipped (C55).
* Inconsistent Ed25519 parameters convert without complaint (C56).
* The X11 forwarding option has a wrong name (C60).
* `get_valid_before` raises for certificates valid forever (C63).
* Slices, concatenations and copies of an encrypted list are written in the clear (C68).
* `copy.copy` of a list shares the header and options dictionaries with the original: setting the copy's cipher to `none` makes the original be written in the clear too (C78_copies, C78_shared_headers).
* The work of bcrypt is decided by the file: the rounds of the KDF options, up to 2^32 - 1, are handed to the KDF as they are. C99 counts reads only.
* `copy.copy` of a key shares all four dictionaries with the original (C98_shallow_copy); `copy.deepcopy` shares nothing (C98_deep_copy_apart).
* Beside a DSA public key, the prime factors of an RSA private key are compared with the public p and q by name, so a warning tells whether they are equal (C79_compared_fields_refuted). Nothing else in the warnings and exceptions of parsing depends on secrets (C79).
* A field '0p' (a Pascal string of size 0) can be written, but reading it raises SystemError, an error inside CPython (C80_read_empty_pascal).
* `popitem` takes the first entry of parameters, unlike that of a dict (C97_popitem), and `fromkeys`, inherited by every parameter class, always raises (C97_copy_and_fromkeys); parameters of different classes with the same entries are equal (C97_equality).
* A struct format for several values can be read (as a tuple) but nothing can be written with it (C80_tuples_refuted).
* With warnings as errors (`-W error`), `PrivateKeyList.from_bytes` reports a wrong check number, a mismatched pair or bad padding as `ValueError`, since `except BaseException` also catches the raised warning (C82_private_key_lists); everywhere else the warning itself is raised.
* `pack_public_string` writes comments as they are: what follows a line boundary in a comment is read back as further key lines (C81_line_boundary_in_comment, C81_comments_refuted).
* `test_encrypt` and `test_decrypt` in tests/test_cipher.py return the comparison and do not assert it; six of the 19 vectors (AES128-CTR, AES192-CTR) lack the block counter and compare unequal (C83_unasserted_vector; an observation about the tests).
* One integer of more than 4300 digits (an RSA modulus of 14300 bits) makes the command print nothing at all under Python 3.11, also for the other keys of the file (C85_one_long_integer_hides_all).
* The static properties are not read-only: the descriptor has no `__set__`, so they can be assigned on a class or an instance (C86_readonly_refuted, C86_instance_hides).
* The cipher classes for CTR and CBC modes and 3DES are abstract, as they leave `get_iv_length` abstract; harmless, as they are only used through class methods (C87_library_abstract).
* A passphrase that begins with '-' and is given as a separate argument (`--passphrase -abc`) is refused, or taken for an option; `--passphrase=-abc` works for every passphrase (C88_separate_exactly_plain, C88_attached_any).
* The docstrings of `pack_bytes` and `pack_string` describe `retain_kdf_options_if_present` the wrong way round: `True` keeps the list's options, `False` generates new ones (C39). With `True` and the same passphrase the key stream of CTR, GCM and ChaCha20 is used again (C89_same_options_reveal_differences).
* A file under a CTR cipher can be altered without the passphrase so that it parses, without a warning, to another private key; the seed of an Ed25519 key is an example (C89_counter_mode_is_malleable, C89_example).
* Ctrl-C at the passphrase prompt of `from_bytes` is turned into `ValueError` (`except BaseException`), and Ctrl-D into the same exception as a truncated file; `pack_bytes` passes both on (C90).
* The docstrings of pack_bytes and pack_string name IndexError as the only exception; five others are possible, among them ValueError for an empty passphrase (C102_only_index_error_refuted).
* By Python's default filter a warning is shown once per text and line of source. Since most texts do not name the key, the second and later defective keys of a file or process are parsed without a word (C101_every_defect_shown_refuted).
* Private key lists are compared without their header, cipher and KDF, so an encrypted and an unencrypted list can be equal (C95_equal_lists_are_protected_alike_refuted); a pair and the plain tuple of its keys are neither `==` nor `!=` (C95_not_equal_is_the_opposite_refuted).
* README.md shows `kdf_options` without the `"data"` level that the command prints (an observation).
* Assigning header['key_type'] gives bytes that do not parse (C70).
* Certificates nested in each other's authority key make parsing recurse once per 100 bytes of
  input; RecursionError is not among the exceptions that the parser catches, so a short key
  makes it escape (C76_bound_attained). How many Python frames one level takes, and hence the
  exact depth at which the interpreter's limit is met, is not modelled.

### 5.4 Seeded bugs

`seeded/LOG.jsonl` records edits to the model that a realistic bug would make, with the theorems
that stopped proving and the theorems added or strengthened because an edit survived.
