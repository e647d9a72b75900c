{"id": "C01", "title": "Fixed-size reads are all-or-nothing", "statement": "read_fixed_bytes(n), for 0 <= n <= sys.maxsize, on a stream with r unread bytes either returns exactly the next n bytes and advances the position by exactly n (when r >= n), or raises EOFError; it never returns a short read. The EOFError's first argument is True exactly when r = 0. The stream's contents are never changed. Two successive reads of m and n bytes return the same bytes as one read of m + n. A negative size reads all that is left, and a size outside the platform's range raises OverflowError without moving the stream.", "quantifier": "every stream content, every position (also past the end), every n", "why_tests_cant": "the boundary between r and n must be right for every pair of sizes and positions", "anchors": ["openssh_key/pascal_style_byte_stream.py:read_fixed_bytes"]}
{"id": "C02", "title": "EOF errors do not disclose stream contents", "statement": "The EOFError raised by a read that runs out of data depends only on how many bytes remained and how many were requested, never on the values of the bytes (the CVE-2022-31124 regression class).", "quantifier": "every pair of streams with equal remaining length, every request size", "why_tests_cant": "non-interference relates pairs of executions; a test inspects one message", "anchors": ["openssh_key/pascal_style_byte_stream.py:read_fixed_bytes"]}
{"id": "C03", "title": "Pascal-style byte strings and strings round-trip", "statement": "Writing a bytes or str value with write_from_format_instruction (any positive prefix size) and then reading it back with the same instruction yields the same value and leaves the stream exactly after what was written, whatever bytes precede or follow it in the stream.", "quantifier": "every bytes value, every encodable str, every prefix size k >= 1 for which the length fits, every surrounding context", "why_tests_cant": "unbounded values, sizes and contexts", "anchors": ["openssh_key/pascal_style_byte_stream.py:write_from_format_instruction", "openssh_key/pascal_style_byte_stream.py:read_from_format_instruction", "openssh_key/pascal_style_byte_stream.py:read_pascal_bytes"]}
{"id": "C04", "title": "Non-negative integers round-trip as MPINT", "statement": "Every int >= 0 whose encoding fits the length prefix can be written as an MPINT and reads back as the same int. More generally any int that write accepts reads back unchanged.", "quantifier": "every non-negative int (and every int the writer accepts)", "why_tests_cant": "sign-bit boundaries occur at every multiple of 8 bits, without bound", "anchors": ["openssh_key/pascal_style_byte_stream.py:write_from_format_instruction"]}
{"id": "C05", "title": "Negative integers as MPINT", "statement": "RFC 4251 mpints are signed: every negative int should be writable as an MPINT. (The code violates this: it raises OverflowError exactly for ints v with -2^(8k) < v < -2^(8k-1), k >= 1.)", "quantifier": "every negative int", "why_tests_cant": "the failing set is an infinite union of intervals that a sampled test misses; the suite only writes small magnitudes", "anchors": ["openssh_key/pascal_style_byte_stream.py:write_from_format_instruction"]}
{"id": "C06", "title": "MPINT encoding is canonical", "statement": "The bytes written for an int are the RFC 4251 mpint: a 4-byte big-endian length followed by the shortest big-endian two's complement representation; zero is the empty string; no unnecessary leading 0x00 or 0xFF byte; non-negative values never have the top bit of the first byte set.", "quantifier": "every int the writer accepts", "why_tests_cant": "minimality is a statement about all shorter encodings", "anchors": ["openssh_key/pascal_style_byte_stream.py:write_from_format_instruction"]}
{"id": "C07", "title": "UTF-8 strictness", "statement": "Reading a STRING succeeds exactly on well-formed UTF-8 (no overlong forms, surrogates or values above U+10FFFF) and re-encoding the result gives back the same bytes, so two different byte strings never parse as the same str.", "quantifier": "every byte string", "why_tests_cant": "the set of malformed sequences is infinite and the map must be injective", "anchors": ["openssh_key/pascal_style_byte_stream.py:read_from_format_instruction"]}
{"id": "C08", "title": "Records round-trip", "statement": "Writing a mapping of values with write_from_format_instructions_dict and reading with the same format instructions returns, for every field of the format in order, the written value, and nothing else; bytes following the record are left unread. (Values for fixed-size byte fields 'Ns' must have N bytes: struct.pack silently pads or cuts others.)", "quantifier": "every format-instruction mapping built from BYTES/STRING/MPINT (any prefix size) and integer struct formats, every mapping of values the writer accepts, every trailing context", "why_tests_cant": "unbounded formats and values; compositional", "anchors": ["openssh_key/pascal_style_byte_stream.py:write_from_format_instructions_dict", "openssh_key/pascal_style_byte_stream.py:read_from_format_instructions_dict"]}
{"id": "C09", "title": "Reading is sound and complete for the RFC 4251 wire format", "statement": "read_from_format_instructions_dict succeeds with values v having consumed bytes b exactly when b is the concatenation, in field order, of RFC 4251 encodings of the values v.", "quantifier": "every format mapping over the instructions OpenSSH uses, every input byte string", "why_tests_cant": "an if-and-only-if over all inputs", "anchors": ["openssh_key/pascal_style_byte_stream.py:read_from_format_instructions_dict", "openssh_key/pascal_style_byte_stream.py:read_from_format_instruction"]}
{"id": "C10", "title": "Encodings are unambiguous and prefix-free", "statement": "If two value mappings are written with the same format, and one output followed by arbitrary bytes equals the other followed by arbitrary bytes, then the mappings agree on every field of the format and the trailing bytes are equal. (Values of fixed-length string fields, the struct code Ns, must have exactly N bytes: shorter ones are filled up with zeros and longer ones cut off.)", "quantifier": "every format, every two value mappings, every two suffixes", "why_tests_cant": "a statement about pairs of all inputs", "anchors": ["openssh_key/pascal_style_byte_stream.py:write_from_format_instructions_dict"]}
{"id": "C11", "title": "Truncated records are rejected", "statement": "Reading a record from any strict prefix of its encoding raises EOFError; it never returns values.", "quantifier": "every format, every record, every truncation point", "why_tests_cant": "every cut position of every record", "anchors": ["openssh_key/pascal_style_byte_stream.py:read_from_format_instructions_dict", "openssh_key/pascal_style_byte_stream.py:read_fixed_bytes"]}
{"id": "C12", "title": "Repeated records round-trip", "statement": "Writing a list of records with write_repeatedly_from_format_instructions_dict and reading the whole stream with read_repeatedly_from_format_instructions_dict returns the same list in the same order. (Values of fixed-length string fields, the struct code Ns, must have exactly N bytes, as for C10.)", "quantifier": "every list of records of any length, every non-empty format that occupies at least one byte", "why_tests_cant": "unbounded list length", "anchors": ["openssh_key/pascal_style_byte_stream.py:read_repeatedly_from_format_instructions_dict", "openssh_key/pascal_style_byte_stream.py:write_repeatedly_from_format_instructions_dict"]}
{"id": "C13", "title": "Repeated reads detect truncation", "statement": "read_repeatedly_from_format_instructions_dict returns only when the stream is exactly a sequence of complete records, otherwise it raises EOFError. (The code violates this: if the data ends exactly where a new read would start, inside a record - e.g. after a length prefix, or between two fields - the partial record is silently dropped.)", "quantifier": "every byte string", "why_tests_cant": "requires every truncation point", "anchors": ["openssh_key/pascal_style_byte_stream.py:read_repeatedly_from_format_instructions_dict"]}
{"id": "C14", "title": "Repeated reads terminate", "statement": "read_repeatedly_from_format_instructions_dict terminates on every stream. (The code violates this for formats all of whose fields occupy zero bytes; for all others it performs at most one more iteration than there are unread bytes.) The format without fields is rejected with ValueError and nothing is read.", "quantifier": "every byte string, every format", "why_tests_cant": "termination cannot be observed by a finite test", "anchors": ["openssh_key/pascal_style_byte_stream.py:read_repeatedly_from_format_instructions_dict"]}
{"id": "C15", "title": "Writes are checked and atomic per value", "statement": "write_from_format_instruction with a value of the wrong Python type raises ValueError (struct.error for struct formats), a length that does not fit the prefix raises OverflowError, an unencodable str raises a ValueError subclass, and in every failing case the stream's contents and position are unchanged. What is no format instruction is refused with ValueError by reading, writing and checking, and nothing is read or written. With a prefix size that is not positive reading raises ValueError and reads nothing, and writing writes nothing and succeeds exactly for empty values (or the integer 0) with size 0.", "quantifier": "every instruction, value, prefix size and stream", "why_tests_cant": "every combination of type, size and stream state", "anchors": ["openssh_key/pascal_style_byte_stream.py:write_from_format_instruction"]}
{"id": "C16", "title": "Validation agrees with writing", "statement": "check_dict_matches_format_instructions_dict emits no warning exactly when every field of the format is present with the proscribed type (for struct formats: packs). If it is silent then write_from_format_instructions_dict cannot fail with KeyError, ValueError for a wrong type or struct.error; and if write succeeds it is silent.", "quantifier": "every format and every mapping of values", "why_tests_cant": "relates two functions on all inputs", "anchors": ["openssh_key/pascal_style_byte_stream.py:check_dict_matches_format_instructions_dict", "openssh_key/pascal_style_byte_stream.py:write_from_format_instructions_dict"]}
{"id": "C17", "title": "Public key files: every key type round-trips", "statement": "For each of the sixteen supported key types, PublicKey.from_bytes(k.pack_public_bytes()) returns a key with the same key type, the same value for every public parameter and nothing else, without an excess-bytes warning or remainder.", "quantifier": "every key object of every key type that packs", "why_tests_cant": "all parameter values of all key types", "anchors": ["openssh_key/key.py:PublicKey", "openssh_key/key.py:Key.from_bytes", "openssh_key/key.py:Key.pack_public_bytes", "openssh_key/key_params/factory.py:_KEY_TYPE_MAPPING"]}
{"id": "C18", "title": "Public key blob layout", "statement": "pack_public_bytes produces exactly string(key type) followed by the RFC 4253/5656/8709, PROTOCOL.u2f and PROTOCOL.certkeys public fields of that key type, in specification order.", "quantifier": "every key of every key type that packs", "why_tests_cant": "all values; field order for all sixteen types", "anchors": ["openssh_key/key.py:Key.pack_public_bytes", "openssh_key/key_params/*.py:get_format_instructions_dict"]}
{"id": "C19", "title": "Packing the public half of a private key reveals no private parameter", "statement": "pack_public_bytes of a private key depends only on its key type and public parameters: two private keys that agree on those produce identical bytes, equal to what the corresponding public key packs to.", "quantifier": "every pair of private keys of the eight private key types", "why_tests_cant": "non-interference over all pairs", "anchors": ["openssh_key/key.py:Key.pack_public_bytes"]}
{"id": "C20", "title": "Re-packing a parsed public key is byte-exact", "statement": "If PublicKey.from_bytes(b) succeeds, all MPINT fields of b are canonically encoded and there is no remainder, then pack_public_bytes() returns b. (Without the canonicity premise the code can change the bytes or even raise OverflowError.)", "quantifier": "every byte string that parses", "why_tests_cant": "every accepted input", "anchors": ["openssh_key/key.py:Key.from_bytes", "openssh_key/key.py:Key.pack_public_bytes"]}
{"id": "C21", "title": "Excess bytes are reported and kept", "statement": "Key.from_bytes emits the excess-bytes warning exactly when input remains after the key, and then (and only then) stores exactly those remaining bytes as clear['remainder']; packing drops them.", "quantifier": "every byte string that parses", "why_tests_cant": "every input and every amount of excess", "anchors": ["openssh_key/key.py:Key.from_bytes"]}
{"id": "C22", "title": "Private key blobs round-trip", "statement": "PrivateKey.from_byte_stream on a stream containing k.pack_private_bytes() followed by anything returns the key type, every private parameter and the comment of k, and leaves exactly what follows unread.", "quantifier": "every private key of the eight private key types that packs, every trailing context", "why_tests_cant": "all values", "anchors": ["openssh_key/key.py:PrivateKey.pack_private_bytes", "openssh_key/key.py:Key.from_byte_stream"]}
{"id": "C23", "title": "Unknown key types are rejected", "statement": "Parsing a key whose encoded type is not one of the sixteen supported names raises KeyError and returns nothing; the eight certificate types have no private form.", "quantifier": "every type name", "why_tests_cant": "all strings outside a finite set", "anchors": ["openssh_key/key_params/factory.py:get_public_key_params_class", "openssh_key/key_params/factory.py:get_private_key_params_class"]}
{"id": "C24", "title": "Private key list round-trips under every cipher", "statement": "PrivateKeyList.from_bytes(l.pack_bytes(p), p) returns the same private keys (type, every parameter, comment), in order, and their public halves, for every supported cipher name with kdf bcrypt and for cipher none with kdf none, assuming only that block decryption inverts block encryption; no check-number, consistency or padding warning is produced.", "quantifier": "every list of packable keys, every passphrase, every random salt and check number, every cipher", "why_tests_cant": "all lists, all randomness, all ciphers", "anchors": ["openssh_key/private_key_list.py:PrivateKeyList.pack_bytes", "openssh_key/private_key_list.py:PrivateKeyList.from_bytes", "openssh_key/cipher/*.py"]}
{"id": "C25", "title": "Private key file layout", "statement": "pack_bytes produces exactly the openssh-key-v1 layout of PROTOCOL.key: magic, string(cipher), string(kdf), string(kdf options), uint32 key count, one string per public key, string(ciphertext) and, for AEAD ciphers, the tag outside the length-prefixed string.", "quantifier": "every call of pack_bytes that succeeds", "why_tests_cant": "all inputs", "anchors": ["openssh_key/private_key_list.py:PrivateKeyList.pack_bytes"]}
{"id": "C26", "title": "Padding", "statement": "The plaintext that pack_bytes encrypts has a length that is a multiple of the cipher's block size and ends with the deterministic padding 1,2,3,... of fewer than block-size bytes; both check numbers in it are equal.", "quantifier": "every key list, cipher and random check number", "why_tests_cant": "every residue modulo the block size for every list", "anchors": ["openssh_key/private_key_list.py:PrivateKeyList.pack_bytes"]}
{"id": "C27", "title": "from_bytes raises only ValueError", "statement": "For every byte string, PrivateKeyList.from_bytes either returns a list or raises ValueError (or a subclass); no EOFError, KeyError, IndexError, OverflowError, struct.error or crypto exception escapes.", "quantifier": "every byte string, passphrase and prompt answer", "why_tests_cant": "totality over all inputs; the fuzzers only sample", "anchors": ["openssh_key/private_key_list.py:PrivateKeyList.from_bytes"]}
{"id": "C28", "title": "Magic and count are enforced", "statement": "from_bytes succeeds only if the input starts with b'openssh-key-v1\\0' and its declared key count is non-negative, and then returns exactly that many pairs.", "quantifier": "every byte string", "why_tests_cant": "every accepted input", "anchors": ["openssh_key/private_key_list.py:PrivateKeyList.from_bytes"]}
{"id": "C29", "title": "Truncated private key files are rejected", "statement": "from_bytes on any strict prefix of the output of pack_bytes raises ValueError.", "quantifier": "every packed file, every truncation point", "why_tests_cant": "every cut of every file", "anchors": ["openssh_key/private_key_list.py:PrivateKeyList.from_bytes"]}
{"id": "C30", "title": "from_string accepts exactly armored text", "statement": "PrivateKeyList.from_string raises ValueError unless the first line is the BEGIN line and the last line the END line, and otherwise behaves as from_bytes on the base64 decoding of the lines between them; on non-empty text it raises only ValueError. (On the empty string the code raises IndexError.)", "quantifier": "every string", "why_tests_cant": "totality over all strings", "anchors": ["openssh_key/private_key_list.py:PrivateKeyList.from_string"]}
{"id": "C31", "title": "Armor round-trips", "statement": "PrivateKeyList.from_string(l.pack_string(p), p) behaves identically to from_bytes(l.pack_bytes(p), p).", "quantifier": "every list, passphrase and randomness", "why_tests_cant": "every length of base64 text", "anchors": ["openssh_key/private_key_list.py:PrivateKeyList.pack_string", "openssh_key/private_key_list.py:PrivateKeyList.from_string"]}
{"id": "C32", "title": "Armor format", "statement": "pack_string emits the BEGIN line, the base64 text wrapped so that every line has exactly 70 characters except a last line of 1 to 70, then the END line and a final newline; concatenating the lines gives the base64 of pack_bytes.", "quantifier": "every packed list", "why_tests_cant": "all lengths modulo 70", "anchors": ["openssh_key/private_key_list.py:PrivateKeyList.pack_string"]}
{"id": "C33", "title": "include_indices selects exactly", "statement": "pack_bytes with include_indices packs exactly the pairs at those indices, in that order and with repetitions, counting negative indices from the end; an out-of-range index raises IndexError; omitting it equals passing 0..len-1.", "quantifier": "every list and every list of indices", "why_tests_cant": "unbounded index lists", "anchors": ["openssh_key/private_key_list.py:PrivateKeyList.pack_bytes"]}
{"id": "C34", "title": "override_public_with_private", "statement": "With override_public_with_private=True the output does not depend on the public halves at all; with False each public section is what the public half packs to.", "quantifier": "every two lists with the same private halves", "why_tests_cant": "relates all pairs of lists", "anchors": ["openssh_key/private_key_list.py:PrivateKeyList.pack_bytes"]}
{"id": "C35", "title": "Passphrase handling", "statement": "With kdf none no passphrase is requested and the result does not depend on the passphrase, both for packing and parsing; otherwise the user is prompted exactly when no passphrase was given, and the answer is used as if it had been passed.", "quantifier": "every list, byte string, passphrase and prompt answer", "why_tests_cant": "non-interference over all passphrases", "anchors": ["openssh_key/private_key_list.py:PrivateKeyList.from_bytes", "openssh_key/private_key_list.py:PrivateKeyList.pack_bytes"]}
{"id": "C36", "title": "Authenticated ciphers accept only genuine ciphertexts", "statement": "For aes*-gcm and chacha20-poly1305, decrypt succeeds with plaintext p exactly when the input is the encryption of p under the derived key; anything else raises.", "quantifier": "every ciphertext, key and passphrase", "why_tests_cant": "every possible tampering", "anchors": ["openssh_key/cipher/integrity.py"]}
{"id": "C37", "title": "Every cipher decrypts what it encrypts", "statement": "For each cipher class, decrypt(kdf, passphrase, encrypt(kdf, passphrase, p)) = p for every plaintext whose length is a multiple of the block size, with the key and IV taken as the disjoint first and last parts of the derived material.", "quantifier": "every plaintext, passphrase and KDF options", "why_tests_cant": "all plaintexts and keys", "anchors": ["openssh_key/cipher/common.py:InitializationVectorCipher", "openssh_key/cipher/confidentiality.py", "openssh_key/cipher/integrity.py", "openssh_key/cipher/none.py"]}
{"id": "C38", "title": "Inconsistent private key files are reported", "statement": "from_bytes emits the check-number warning exactly when the two check numbers differ, the key-type (resp. values) warning for key i exactly when the types (resp. some shared parameter) of its halves differ, and the padding warning exactly when the plaintext length is not a multiple of the block size or the trailing bytes are not a prefix of 1..block size.", "quantifier": "every byte string that parses", "why_tests_cant": "iff over all accepted inputs", "anchors": ["openssh_key/private_key_list.py:PrivateKeyList.from_bytes"]}
{"id": "C39", "title": "KDF options", "statement": "Packing with retain_kdf_options_if_present=True writes the KDF options the list was parsed with, so they survive parse/pack; with False fresh options are generated (16 random salt bytes, 16 rounds).", "quantifier": "every list and every random source", "why_tests_cant": "all inputs; documentation states the opposite", "anchors": ["openssh_key/private_key_list.py:PrivateKeyList.pack_bytes", "openssh_key/kdf_options/bcrypt_options.py"]}
{"id": "C40", "title": "Strictness about trailing data", "statement": "A private key file with bytes after the ciphertext (or inside the KDF options field) should be reported. (The code silently ignores them: appending any bytes to a parseable file does not change the result.)", "quantifier": "every parseable byte string and every suffix", "why_tests_cant": "all suffixes", "anchors": ["openssh_key/private_key_list.py:PrivateKeyList.from_bytes"]}
{"id": "C41", "title": "Public key lines parse back", "statement": "PublicKey.from_string(k.pack_public_string()) yields the key type and all public parameters of k and no type-mismatch warning; the comment is the text after the second space. (The code keeps the final newline in the comment.) The line is made whenever the public bytes are, for comments that are str, int or bytes; a comment that is not a str is written as Python prints it, so it comes back as text.", "quantifier": "every key that packs and every comment", "why_tests_cant": "all keys and comments", "anchors": ["openssh_key/key.py:Key.from_string", "openssh_key/key.py:Key.pack_public_string"]}
{"id": "C42", "title": "Clear-text type mismatch is reported", "statement": "Key.from_string warns about inconsistent key types exactly when the first word of the line differs from the encoded key type.", "quantifier": "every line that parses", "why_tests_cant": "iff over all lines", "anchors": ["openssh_key/key.py:Key.from_string"]}
{"id": "C43", "title": "base64", "statement": "Decoding the base64 of any byte string gives it back, also when arbitrary non-alphabet characters such as newlines are inserted anywhere.", "quantifier": "every byte string and every insertion of non-alphabet characters", "why_tests_cant": "unbounded", "anchors": ["openssh_key/key.py:Key.from_string", "openssh_key/private_key_list.py:PrivateKeyList.from_string"]}
{"id": "C44", "title": "Certificate principals", "statement": "get_valid_principals() after set_valid_principals(l) returns l, and no other parameter changes. If the field is absent or not bytes, KeyError or TypeError is raised.", "quantifier": "every list of encodable strings", "why_tests_cant": "unbounded lists", "anchors": ["openssh_key/key_params/cert.py:CertPublicKeyParams.get_valid_principals", "openssh_key/key_params/cert.py:CertPublicKeyParams.set_valid_principals"]}
{"id": "C45", "title": "Certificate options behave as a map", "statement": "After set_critical_option/set_extension_value(name, v) the getter returns v for that name and the previous value for every other name, other parameters are unchanged, and a sequence of sets behaves as the last-write-wins map. If the field is absent or not bytes, KeyError or TypeError is raised.", "quantifier": "every certificate whose option field is a well-formed list, every sequence of sets", "why_tests_cant": "arbitrary histories", "anchors": ["openssh_key/key_params/cert.py:CertPublicKeyParams._set_option_for_param", "openssh_key/key_params/cert.py:CertPublicKeyParams._get_option_from_param"]}
{"id": "C46", "title": "Certificate options are canonical", "statement": "The option field produced by a set is sorted strictly by name (by UTF-8 bytes, as PROTOCOL.certkeys requires) and has no duplicate names.", "quantifier": "every certificate and every set", "why_tests_cant": "all orders of all names", "anchors": ["openssh_key/key_params/cert.py:CertPublicKeyParams.pack_options"]}
{"id": "C47", "title": "Options are guarded by principal type", "statement": "Accessing a known CertOption on a certificate whose type is not one of the option's valid principal types (or is invalid) raises ValueError and changes nothing; plain string names bypass the guard.", "quantifier": "every certificate, option and value", "why_tests_cant": "every certificate state", "anchors": ["openssh_key/key_params/cert.py:CertPublicKeyParams._get_option_from_param", "openssh_key/key_params/cert.py:CertPublicKeyParams._set_option_for_param", "openssh_key/key_params/cert.py:CertPublicKeyParams.get_type"]}
{"id": "C48", "title": "Signed bytes", "statement": "pack_signed_bytes is everything the certificate's parameters pack to except the signature, so pack_public_bytes = string(key type) ++ pack_signed_bytes ++ string(signature). (PROTOCOL.certkeys signs the leading type string too, which pack_signed_bytes omits.)", "quantifier": "every certificate that packs", "why_tests_cant": "all certificates of eight types", "anchors": ["openssh_key/key_params/cert.py:CertPublicKeyParams.pack_signed_bytes"]}
{"id": "C49", "title": "Signature key accessors", "statement": "get_signature_key() after set_signature_key(k) returns a key with k's type and public parameters; a certificate as authority is refused with ValueError and nothing changes; parsing nested certificate authorities always terminates.", "quantifier": "every certificate and key; every nesting depth", "why_tests_cant": "unbounded nesting", "anchors": ["openssh_key/key_params/cert.py:CertPublicKeyParams.get_signature_key", "openssh_key/key_params/cert.py:CertPublicKeyParams.set_signature_key"]}
{"id": "C50", "title": "Certificate validation only warns", "statement": "Constructing certificate parameters never raises because of the contents of valid_principals, critical_options, extensions or signature_key; malformed contents are reported as warnings. (The code violates this: an authority key of unknown type raises KeyError, and non-UTF-8 names raise UnicodeDecodeError.)", "quantifier": "every value of those fields", "why_tests_cant": "every malformed content", "anchors": ["openssh_key/key_params/cert.py:CertPublicKeyParams.check_params_are_valid"]}
{"id": "C51", "title": "Security key flags", "statement": "set_flag(f, b) makes get_flag(f) = b, leaves every other bit of flags unchanged, is idempotent, keeps a byte a byte, and changes no other parameter; any sequence of set_flag calls leaves each flag at its last value. A key whose flags are absent or not an integer raises KeyError or TypeError and is not changed.", "quantifier": "every flags value and every sequence of calls", "why_tests_cant": "arbitrary histories over all integers", "anchors": ["openssh_key/key_params/sk.py:SecurityKeyPrivateKeyParams.get_flag", "openssh_key/key_params/sk.py:SecurityKeyPrivateKeyParams.set_flag"]}
{"id": "C52", "title": "Ed25519 consistency checks", "statement": "Constructing Ed25519 private parameters whose two fields are bytes emits no warning exactly when the public key has 32 bytes and private_public is a 32-byte seed followed by that same public key.", "quantifier": "every pair of byte strings", "why_tests_cant": "all lengths and contents", "anchors": ["openssh_key/key_params/ed25519.py:check_params_are_valid"]}
{"id": "C53", "title": "Generated pairs are consistent", "statement": "PublicPrivateKeyPair.generate(t, c) returns halves with the same type whose public bytes are equal, with comment c on the private half, for every generator output; the public half should hold only public parameters. (The code violates the last part: the public half's params object contains the private parameters.)", "quantifier": "every key type, comment and generator output", "why_tests_cant": "all generated keys", "anchors": ["openssh_key/private_key_list.py:PublicPrivateKeyPair.generate"]}
{"id": "C54", "title": "Equality", "statement": "Key equality and pair equality are equivalence relations that compare class, header, params, footer and clear contents as mappings (independent of insertion order).", "quantifier": "every pair and triple of keys", "why_tests_cant": "relations over all triples", "anchors": ["openssh_key/key.py:Key.__eq__", "openssh_key/private_key_list.py:PublicPrivateKeyPair.__eq__"]}
{"id": "C55", "title": "Command line tool", "statement": "For a public key file every line either contributes one parsed key in order or is reported as unparseable, and a bad line never prevents the others from being printed. (The code violates this: a line without a space raises IndexError and an unknown key type raises KeyError, aborting the program.)", "quantifier": "every text file", "why_tests_cant": "all files", "anchors": ["openssh_key/__main__.py"]}
{"id": "C56", "title": "Conversion selects by class", "statement": "For ssh-rsa, ssh-dss, ecdsa-sha2-nistp256/384/521 and ssh-ed25519, convert_from(o) on the public or private class returns an object of that class holding exactly its fields, with the values o determines, or raises ValueError if o is not supported. convert_to(T) returns an instance of T holding the parameters' values or raises; for parameters that describe a key, convert_from(convert_to(p)) returns p's parameters and convert_to(convert_from(o)) returns o. Security-key and certificate classes never return a result (KeyError for a public key of the underlying type, ValueError otherwise). On the abstract base classes it raises TypeError, KeyError or ValueError, depending only on which key types the object determines. Building parameters for an ECDSA key warns about the point exactly if the package cannot decode it for that curve. A key with another curve's name, a point that does not decode on its curve or an Ed25519 key or seed of the wrong length is refused with ValueError, and a missing entry with KeyError. A str, int or tuple in place of bytes is refused with TypeError, except by the conversion of an Ed25519 key to bytes, which turns an int into that many zero bytes.", "quantifier": "every key object, every parameters object, every destination class, with or without PyNaCl", "why_tests_cant": "all values, recursion over the class hierarchy", "anchors": ["openssh_key/key_params/common.py:convert_from", "openssh_key/key_params/common.py:convert_to", "openssh_key/key_params/ecdsa.py:ECDSAPublicKeyParams.convert_from", "openssh_key/key_params/rsa.py:conversion_functions", "openssh_key/key_params/ed25519.py:conversion_functions"]}
{"id": "C57", "title": "Exceptions of key parsing", "statement": "Key.from_bytes on any byte string either returns a key or raises ValueError (or a subclass such as UnicodeDecodeError), EOFError or KeyError, always terminating; Key.from_string additionally raises IndexError exactly for text without a space and binascii.Error for bad base64. Constructing a key object of a known type from arbitrary dicts never raises for the eight plain types and raises at most UnicodeDecodeError or KeyError for certificates.", "quantifier": "all byte strings, all text, all header/params/footer dicts, both key kinds, every curve-point oracle", "why_tests_cant": "The set of malformed inputs is unbounded (nested certificate authorities of any depth, any truncation, any length prefix); fuzzing samples it only.", "anchors": ["openssh_key/key.py: Key.from_bytes, Key.from_byte_stream, Key.from_string, Key.__init__", "openssh_key/key_params.py: check_params_are_valid", "openssh_key/cert.py: CertKeyParamsMixin.check_params_are_valid"]}
{"id": "C58", "title": "Parsing a private key file returns exactly what the file format says", "statement": "PrivateKeyList.from_bytes(b, passphrase) returns a list if and only if b is laid out as OpenSSH's PROTOCOL.key prescribes (magic, cipher, KDF, KDF options, key count, public keys, encrypted section, tag), the encrypted section decrypts with the named cipher under the key derived from the passphrase to two check numbers, as many private keys as public keys, and padding; and then every attribute of the list is the corresponding part of the file.", "quantifier": "all byte strings, all passphrases (given or prompted), all ciphers and KDFs", "why_tests_cant": "Tests parse a handful of files; acceptance and the value of each attribute must agree with the format for every byte string, including all the malformed ones.", "anchors": ["openssh_key/private_key_list.py: PrivateKeyList.from_bytes", "openssh_key/pascal_style_byte_stream.py: PascalStyleByteStream.read_from_format_instructions_dict", "openssh_key/cipher/", "openssh_key/kdf_options.py"]}
{"id": "C59", "title": "Parsing and packing again gives the same file", "statement": "Let b be the result of PrivateKeyList.pack_bytes on any list. Parsing b and packing the parsed list with the same passphrase, retain_kdf_options_if_present=True, the same choice about public halves and the same random check number gives b again, byte for byte.", "quantifier": "every list, every cipher, every passphrase, every selection of keys", "why_tests_cant": "all lists, ciphers and random numbers", "anchors": ["openssh_key/private_key_list.py:PrivateKeyList.pack_bytes", "openssh_key/private_key_list.py:PrivateKeyList.from_bytes"]}
{"id": "C60", "title": "Known certificate options have OpenSSH's names", "statement": "Setting a known CertCriticalOption or CertExtension on a user certificate makes the option with the name that PROTOCOL.certkeys defines present in the certificate with that value. (The code violates this for CertExtension.PERMIT_X11_FORWARDING: it writes 'permit-x11-forwarding' where the protocol's name is 'permit-X11-forwarding'.)", "quantifier": "all nine known options, all certificates, all values", "why_tests_cant": "A test that sets and gets through the same enum agrees with itself whatever the name is; the claim is about the bytes for every prior content of the field.", "anchors": ["openssh_key/key_params/cert.py: CertCriticalOption, CertExtension, set_critical_option, set_extension_value"]}
{"id": "C61", "title": "ECDSA parameters are checked against the key type", "statement": "Constructing the parameters of an ECDSA key of type ecdsa-sha2-nistpN (or sk-ecdsa-sha2-nistp256), public or private, never raises, warns about the curve name if and only if the identifier parameter is not nistpN, and warns about the point if and only if the q parameter is not an encoded point of that curve. The same two warnings are given for the certificates of those types.", "quantifier": "all identifier and q values, any other parameters, every decision of which byte strings encode points", "why_tests_cant": "Tests use a handful of keys; the if and only if ranges over all curve names, all point encodings, and all sets of other parameters.", "anchors": ["openssh_key/key_params/ecdsa.py:ECDSAPublicKeyParams.check_params_are_valid", "openssh_key/key_params/ecdsa.py:ECDSA_NISTP256_PublicKeyParams"]}
{"id": "C62", "title": "Constructing a key reports every missing and ill-typed field", "statement": "When a PublicKey or PrivateKey object of a supported type is constructed from dicts, every parameter that the key type prescribes and that is missing or has a value of the wrong type is named in a warning that says what it should be, and so is every such field of the footer; for the types that are not certificates, no other field is.", "quantifier": "all headers, parameter dicts, footer dicts and key types", "why_tests_cant": "all subsets of missing or wrong fields of all key types", "anchors": ["openssh_key/key.py:Key.__init__", "openssh_key/pascal_style_byte_stream.py:PascalStyleByteStream.check_dict_matches_format_instructions_dict"]}
{"id": "C63", "title": "Certificate validity times", "statement": "set_valid_after(t) and set_valid_before(t) store the whole seconds of t: the getter then returns the moment of that timestamp (t itself if t has whole seconds), the other time and every other parameter keep their values, and setting what the getter returned changes nothing. Packing the certificate afterwards changes exactly the eight bytes of that field if the timestamp is a 64-bit unsigned number and raises struct.error otherwise. (Not every certificate has a valid_before that get_valid_before can return: for OpenSSH's 'forever', 2^64-1, it raises.) If the entry is missing the getters raise KeyError, and TypeError if it is bytes, a str or a tuple.", "quantifier": "all certificates, all moments, every time zone and implementation of datetime with the stated laws", "why_tests_cant": "all moments and all certificates; tests use a few times after 1970", "anchors": ["openssh_key/key_params/cert.py:CertPublicKeyParams.get_valid_after", "openssh_key/key_params/cert.py:CertPublicKeyParams.set_valid_after", "openssh_key/key_params/cert.py:get_valid_before", "openssh_key/key_params/cert.py:set_valid_before"]}
{"id": "C64", "title": "Building a list of key pairs", "statement": "PrivateKeyList.from_list returns a list holding exactly the given pairs in order, with the given cipher, KDF and options, and raises ValueError if any element is not a pair of a PublicKey and a PrivateKey. Packing that list and parsing the result with the same passphrase gives the same keys in the same order, under the same cipher and KDF names, with the given KDF options if these are retained.", "quantifier": "all lists of elements, ciphers, KDFs, options, passphrases and cryptographic primitives", "why_tests_cant": "all lists and all positions of a wrong element; all ciphers and key contents", "anchors": ["openssh_key/private_key_list.py:PrivateKeyList.from_list", "openssh_key/private_key_list.py:PrivateKeyList.pack_bytes", "openssh_key/private_key_list.py:PrivateKeyList.from_bytes"]}
{"id": "C65", "title": "What the command prints", "statement": "Running the module on a file prints something exactly if the file is UTF-8 text and parsing it succeeds. What is printed is one well-formed JSON text in printable ASCII, with no repeated member names; the JSON value it denotes is unique and shows every field of every parsed key: integers as numbers, text as strings, byte strings as Python bytes literals. Nothing is lost: runs that print the same text parsed the same keys. Byte strings are shown as the literal that Python's repr gives (which quotes and which escapes are used is determined). It is laid out in lines: each element and each member of an array or object that is not empty begins a line, indented by four spaces per level, with a comma at its end if another follows.", "quantifier": "all file contents, passphrases, environments and cryptographic primitives", "why_tests_cant": "the printed strings contain arbitrary characters, bytes and integers of arbitrary size, all of which must be escaped so that the text stays well-formed and unambiguous", "anchors": ["openssh_key/__main__.py", "openssh_key/key.py:Key.__init__", "openssh_key/private_key_list.py:PrivateKeyList.from_bytes"]}
{"id": "C66", "title": "Line endings", "statement": "Replacing the line endings \\r\\n and \\r by \\n in a private key text or in a file of public key lines changes neither the result of parsing nor the warnings and exceptions.", "quantifier": "all texts and all choices of line endings", "why_tests_cant": "all texts and all positions of line endings", "anchors": ["openssh_key/private_key_list.py:PrivateKeyList.from_string", "openssh_key/__main__.py"]}
{"id": "C67", "title": "Editing a key list in place", "statement": "After any sequence of the list's editing methods (append, extend, +=, insert, pop, remove, clear, reverse, sort, *=, assignment to and deletion of items and slices) and copy.copy, failed calls included, a PrivateKeyList holds exactly the pairs Python's list semantics say, and packing it uses the cipher, KDF and KDF options it had before; a file parsed, edited, packed and parsed again holds the edited pairs under the original cipher and KDF.", "quantifier": "every list, every history of editing operations, every cipher, KDF, passphrase and packing option", "why_tests_cant": "An editing history has unboundedly many interleavings; the claim is about which protection ends up on disk after any of them.", "anchors": ["openssh_key/private_key_list.py:PrivateKeyList", "openssh_key/private_key_list.py:PrivateKeyList.__init__", "openssh_key/private_key_list.py:PrivateKeyList.pack_bytes"]}
{"id": "C68", "title": "Slices and copies of a key list keep its protection", "statement": "A list obtained from an encrypted key list by slicing, by copy(), by + or by * is packed with the cipher and KDF of the original. (False of the code for all of these: the new list is written unencrypted even if a passphrase is given; true of copy.copy and of include_indices.)", "quantifier": "every list, every slice (any start, stop, step), every history mixing edits and derived lists", "why_tests_cant": "The loss of encryption depends on the whole history of operations, and a test that only compares the keys cannot see it: the lists compare equal.", "anchors": ["openssh_key/private_key_list.py:PrivateKeyList", "openssh_key/private_key_list.py:PrivateKeyList.__init__", "openssh_key/private_key_list.py:PrivateKeyList.pack_bytes"]}
{"id": "C69", "title": "Packing uses current values only", "statement": "The bytes packed for a list depend only on its keys, the cipher and KDF in its header and its KDF options, and the bytes packed for a key only on its type of parameters and the current entries of its header, parameters and footer; bytes remembered from parsing are never written out.", "quantifier": "every two lists or keys that agree in these and differ arbitrarily in the rest", "why_tests_cant": "Stale cached bytes can differ from the current values in unboundedly many ways.", "anchors": ["openssh_key/private_key_list.py:PrivateKeyList.pack_bytes", "openssh_key/key.py:Key.pack_public_bytes", "openssh_key/key.py:PrivateKey.pack_private_bytes"]}
{"id": "C70", "title": "Editing the entries of a key", "statement": "After an assignment to an entry of a private or public key's parameters, packing either fails or gives bytes that parse to the key with just that entry changed (for a certificate, if the edited parameters are ones a certificate can be built from); a value that has no encoding in the field's type is refused; entries that are not fields of the type do not affect the bytes; any encodable comment can be set and comes back, without changing the parameters or the public bytes. (An assignment to header['key_type'] is the exception: it yields bytes that do not parse.)", "quantifier": "every private and public key of every type, every entry name, every value", "why_tests_cant": "All values of all fields of all types cannot be enumerated.", "anchors": ["openssh_key/key.py:Key.__init__", "openssh_key/key.py:PrivateKey.pack_private_bytes", "openssh_key/pascal_style_byte_stream.py:PascalStyleDict"]}
{"id": "C71", "title": "Generating keys with keyword arguments", "statement": "Generating a key pair of a named type asks the cryptography package for exactly one private key: RSA with the exponent and size given as keyword arguments (default 65537 and 4096), DSA with 1024 bits, ECDSA on the curve of the type, or Ed25519. The pair holds exactly that key's parameters in both halves, with the given comment and no warning, and converts back to the object that was generated. An exception of the generator is passed on. Security key types and unknown types cannot be generated.", "quantifier": "every plain key type, every set of keyword arguments, every comment, every generator that answers with a key of the kind asked for or raises", "why_tests_cant": "Tests generate a few random keys with default arguments; they cannot cover all arguments, all generated keys and all generator failures.", "anchors": ["openssh_key/key.py:PublicPrivateKeyPair.generate", "openssh_key/key_params/rsa.py:generate_private_params", "openssh_key/key_params/dss.py:generate_private_params", "openssh_key/key_params/ecdsa.py:generate_private_params", "openssh_key/key_params/ed25519.py:generate_private_params"]}
{"id": "C72", "title": "Private values influence only the encrypted section", "statement": "If two lists are packed with the same cipher, KDF and KDF options, and the public keys written are the same, then the two files are the same up to the encrypted section: everything before it is equal, whatever the private keys, comments, passphrases and random check integers are. If the ciphertexts are equal so are the files, and if the plaintexts have the same length so have the files.", "quantifier": "every two lists of keys, passphrases, environments, index selections and packing flags", "why_tests_cant": "It is a statement about pairs of runs (non-interference); a test compares a few pairs of outputs.", "anchors": ["openssh_key/private_key_list.py:pack_bytes"]}
{"id": "C73", "title": "Rewriting a key file keeps its keys", "statement": "Parse a key file, put any selection of its pairs in any order in a list with any cipher, KDF and passphrase, and pack it: parsing the result with the new passphrase gives the selected pairs with identical private and public keys, up to bytes that followed a public key in the first file and were reported there. For a file whose numbers can be written (no negative number that packing refuses), re-encrypting under any cipher with any passphrase succeeds.", "quantifier": "every file that parses, every selection and order of its pairs, every cipher, KDF and passphrase", "why_tests_cant": "The files, the selections and the combinations of ciphers are unbounded, and a key lost or changed on re-encryption would only show for particular values.", "anchors": ["openssh_key/private_key_list.py:from_bytes", "openssh_key/private_key_list.py:pack_bytes"]}
{"id": "C74", "title": "What a certificate's signature covers", "statement": "The bytes to be signed determine everything in a certificate except the signature: two certificates have the same signed bytes exactly if they have the same type and the same value for every field but the signature. Replacing the signature does not change them; any other change to a field changes them. They survive packing and parsing.", "quantifier": "every two certificates of every certificate type, every field and every new value", "why_tests_cant": "A collision of signed bytes is a property of pairs of certificates; tests sample single ones.", "anchors": ["openssh_key/key_params/cert.py:pack_signed_bytes"]}
{"id": "C75", "title": "Generated keys survive storage", "statement": "Keys that are generated, put in a list, packed with any cipher, KDF and passphrase and parsed with the same passphrase have the type, comment and parameters they were generated with, and convert to the same objects of the cryptography package as the generator returned.", "quantifier": "every list of plain key types, arguments, comments, generated keys, ciphers, KDFs and passphrases", "why_tests_cant": "The composition of generation, conversion, packing, encryption, decryption and parsing has unboundedly many inputs; tests run a few.", "anchors": ["openssh_key/key.py:PublicPrivateKeyPair.generate", "openssh_key/private_key_list.py:from_list", "openssh_key/private_key_list.py:pack_bytes", "openssh_key/private_key_list.py:from_bytes", "openssh_key/key_params/common.py:convert_to"]}
{"id": "C76", "title": "How deeply parsing a public key nests", "statement": "Parsing a public key calls itself once for each certificate whose authority key is again a certificate, and never more often than that: a key of n bytes nests at most n/100 certificates, and with room for n/100 + 1 calls inside each other the interpreter's recursion limit does not affect the result. The bound is tight: for every d there is a key of exactly 100*d bytes that parses, but on which RecursionError escapes from the parser if only d calls fit.", "quantifier": "every byte string, every number of nested calls allowed, every d below the 4 GiB limit of a length prefix", "why_tests_cant": "The depth depends on the input and is unbounded; a test of a few nested certificates says nothing about the worst input of a given size.", "anchors": ["openssh_key/key.py:from_bytes", "openssh_key/key_params/cert.py:check_params_are_valid", "openssh_key/key_params/cert.py:get_signature_key"]}
{"id": "C77", "title": "Which warnings constructing key parameters gives", "statement": "Constructing parameters of a registered key type reports exactly: one warning for each missing or ill-typed field, in field order; then one for a curve name other than the type's and one for a point that is not on the curve (only looked at if the curve name is present), or one for an Ed25519 public key that is not 32 bytes. These are reported once for plain types, twice for security key types and for certificates, four times for certificates of security keys. Private Ed25519 parameters report fields, public key, fields again, and then whether the second half is the public key and the length is 64. Plain types report nothing else and never raise; certificates report besides only their own kinds of warnings and those of parsing their authority key. The base class that a certificate class names, and checks itself with, is the class of the key type that it certifies.", "quantifier": "every key type, public and private, every dict of values, every point decoder", "why_tests_cant": "Tests check a few warnings with assertWarns, which neither counts them nor excludes others; the claim is about the whole sequence for every dict.", "anchors": ["openssh_key/pascal_style_byte_stream.py:check_params_are_valid", "openssh_key/key_params/ecdsa.py:check_params_are_valid", "openssh_key/key_params/ed25519.py:check_params_are_valid", "openssh_key/key_params/sk.py:check_params_are_valid", "openssh_key/key_params/cert.py:check_params_are_valid"]}
{"id": "C78", "title": "Which objects share state", "statement": "In every program that makes keys, generates pairs, makes, parses, edits, slices, concatenates and copies private key lists, and changes dictionaries in place: (1) no two key objects share a dictionary, so changing an entry of one key changes no other key, also not the other half of a generated pair; (2) the constructor, from_bytes, from_string and generate make keys, and PrivateKeyList.from_bytes makes a list, that share nothing with any earlier object: whatever is later done to the arguments or to any earlier object is not seen in them, and what is done to a new key is not seen in those; (3) a change of a key is seen in every list that holds it; (4) an in-place edit of a list changes that list as it would change a plain list of the pairs shown, and no other list, key or dictionary; (5) slices, copies by copy(), sums and products are new lists with the same key objects and without header and options; (6) copy.copy makes a list with its own sequence of keys but with the same header and options dictionaries, so setting the cipher of the copy sets that of the original; (7) from_list keeps the key objects and the options object it is given and makes a header of its own.", "quantifier": "every sequence of these operations from the start of the program, including ones that raise, and every object reachable in it", "why_tests_cant": "Aliasing shows only in what a later change does to an object made earlier; the histories are unbounded and the tests look at one object at a time.", "anchors": ["openssh_key/key.py:Key.__init__", "openssh_key/pascal_style_byte_stream.py:PascalStyleDict.__init__", "openssh_key/private_key_list.py:PrivateKeyList.__init__", "openssh_key/private_key_list.py:PrivateKeyList.from_list", "openssh_key/private_key_list.py:PrivateKeyList.from_bytes", "openssh_key/private_key_list.py:PublicPrivateKeyPair.generate"]}
{"id": "C79", "title": "Exceptions and warnings do not reveal the secrets of a private key", "statement": "Take two private key files, or two encodings of a private key, that differ in nothing but the contents of secret fields of the same lengths (the private exponent, CRT coefficient and prime factors of an RSA key; the private value of a DSA or ECDSA key; the seed of an Ed25519 key; the key handle of a security key), be they otherwise valid, malformed, inconsistent or cut off at any point. Then PrivateKey.from_bytes, PrivateKeyList.from_bytes and PrivateKeyList.from_string give the same warnings in the same order and either both succeed or both raise the same exception with the same arguments, also looking through to the exception from which a ValueError was raised. So nothing that is warned about or put in an exception depends on a secret. The one exception: beside a DSA public key the factors p and q of an RSA private key are compared with the p and q of the public key, and a warning tells whether they are equal.", "quantifier": "every pair of files or encodings that differ only in secret contents, every cipher, KDF, option string and passphrase, any number of keys, any malformed or truncated rest", "why_tests_cant": "This is a property of pairs of runs over all secrets and all kinds of malformed input; a test can look at the text of one exception for one key (a leak of this kind was published as CVE-2022-31124).", "anchors": ["openssh_key/key.py:Key.from_byte_stream", "openssh_key/key.py:Key.from_bytes", "openssh_key/private_key_list.py:PrivateKeyList.from_bytes", "openssh_key/private_key_list.py:PrivateKeyList.from_string", "openssh_key/pascal_style_byte_stream.py:PascalStyleByteStream.read_from_format_instruction", "openssh_key/pascal_style_byte_stream.py:PascalStyleDict.check_params_are_valid", "openssh_key/key_params/ed25519.py:Ed25519PrivateKeyParams.check_params_are_valid"]}
{"id": "C80", "title": "What struct format strings mean", "statement": "With any format string in the language of Python's struct module (byte order prefix, white space, repeat counts, padding x, chars c, strings s, integers b B h H i I l L q Q, truth values ?, Pascal strings p, and in native mode, with its sizes and alignment, n N P): read_from_format_instruction takes exactly the size of the format, and returns the value the bytes hold, or the tuple of the values if there are none or several; if fewer bytes remain it takes them and raises EOFError. write_from_format_instruction succeeds exactly if the format is for one value and the value has its type and range (strings are filled up with zeros or cut off; any value has a truth value), appends exactly the layout with zero padding, and what was written reads back (a truth value as 1 or 0, a pointer as unsigned number). The one exception is a Pascal string of size 0: it can be written, and reading raises SystemError after the bytes were taken. Formats for no value or for several can be read but never written: a tuple that was read is refused with struct.error. A string that is not a format, or whose size is over sys.maxsize, is refused by reads and writes (struct.error, or UnicodeEncodeError if not ASCII) without touching the stream. check_dict_matches_format_instructions_dict warns, naming field and format, exactly if the value could not be written.", "quantifier": "every format string without the codes e f d (and without ? in native mode), every stream, every value; a 64-bit little-endian host", "why_tests_cant": "Format strings are an unbounded language with unbounded counts; the repository's own tests use a handful of single-value formats.", "anchors": ["openssh_key/pascal_style_byte_stream.py:read_from_format_instruction", "openssh_key/pascal_style_byte_stream.py:write_from_format_instruction", "openssh_key/pascal_style_byte_stream.py:check_dict_matches_format_instructions_dict"]}
{"id": "C81", "title": "The command shows what the library wrote", "statement": "Running python -m openssh_key on a file that holds the text pack_string returned, with the passphrase that was used for packing, prints one JSON object that shows exactly the packed pairs: types, values and comments; with the default override of public keys, without any warning about the file. Running it on a file of lines that pack_public_string returned prints one JSON array that shows exactly these keys in order, each with its comment and without its final newline, and reports no line. (The code violates the latter if a comment contains a line boundary: pack_public_string writes comments as they are, so the rest of the comment is read as further lines and a comment can add keys.)", "quantifier": "every list of pairs with any selection, override, retained options, cipher and passphrase; every sequence of keys of any type and choice of comments; every UTF-8 encoding of these texts as a file", "why_tests_cant": "Composes packing, encryption, armor, file decoding, parsing and JSON output over unbounded numbers of keys and arbitrary comments.", "anchors": ["openssh_key/__main__.py", "openssh_key/private_key_list.py:PrivateKeyList.pack_string", "openssh_key/key.py:Key.pack_public_string"]}
{"id": "C82", "title": "Warnings as errors are strict parsing", "statement": "If the application turns warnings into exceptions (python -W error, warnings.simplefilter('error'), or a filter for certain messages), an operation that gives no such warning behaves exactly as without the filter: the same result or exception, the same other warnings and passphrase prompts in the same order. An operation that gives one behaves as without the filter up to the first such warning and then raises it; no except clause of the library swallows it. Parsing a private key list is the exception: there the raised warning becomes a ValueError, so that callers who expect ValueError still get nothing else. In particular, with all warnings as errors, exactly those keys and files are accepted that parse without any warning, with the same result, and an accepted private key file has equal check numbers, pairs whose halves agree, and the correct padding.", "quantifier": "every set of warnings that are turned into errors, every input of key and private key list parsing, construction, packing, certificate options, conversion, generation and of the command", "why_tests_cant": "Quantifies over all filters and all inputs, and relates two runs of every function, including nested certificate keys and except clauses around warnings.", "anchors": ["openssh_key/key.py:Key.from_bytes", "openssh_key/key.py:Key.from_string", "openssh_key/private_key_list.py:PrivateKeyList.from_bytes", "openssh_key/key_params/cert.py:check_params_are_valid", "openssh_key/key_params/common.py:convert_from", "openssh_key/__main__.py"]}
{"id": "C83", "title": "Protected keys survive with the real ciphers", "statement": "With AES, triple DES, ChaCha20, Poly1305, GCM and bcrypt_pbkdf as their standards define them, and nothing assumed about them: every supported cipher decrypts exactly what it encrypts; a list of keys packed with any encrypting cipher and any passphrase that is not empty is packed successfully and parses, with that passphrase, to the same private keys in order and without a warning about the file; and any file that can be read can be rewritten with another cipher and passphrase and then read with those. EC points are accepted only if they lie on the named curve.", "quantifier": "all ciphers, passphrases, salts, check numbers, lists of keys of any types (below 2 GiB), all files, all keys and blocks of the block ciphers, all byte strings as points", "why_tests_cant": "a test runs a few keys, blocks and passphrases; that decryption inverts encryption must hold for every key and block, and a private key file that cannot be decrypted again is lost", "anchors": ["openssh_key/cipher/confidentiality.py:ConfidentialityOnlyCipher", "openssh_key/cipher/integrity.py:AES_GCMCipher", "openssh_key/cipher/integrity.py:ChaCha20Poly1305Cipher", "openssh_key/kdf_options/bcrypt_options.py:BcryptKDFOptions.derive_key", "openssh_key/private_key_list.py:PrivateKeyList.pack_bytes", "openssh_key/private_key_list.py:PrivateKeyList.from_bytes"]}
{"id": "C84", "title": "Nobody is asked for a passphrase in vain", "statement": "When a list is packed, the user is asked for a passphrase exactly if none is given, the list names a supported cipher and the KDF bcrypt, and everything written before the encryption (KDF options, header, the public and private parts of all selected keys) can be written; when a file is parsed, exactly if none is given and the input is laid out as a private key file that names a supported cipher and KDF bcrypt and whose KDF options and public keys can be read. A list that names an unsupported KDF is refused with a KeyError holding that name, before anything else; one that names an unsupported cipher is never packed, with a KeyError holding that name if nothing else is wrong; a file that names either is refused with a ValueError, whatever the passphrase.", "quantifier": "all lists, headers with values of any type, indices, options, passphrases and answers; all byte strings", "why_tests_cant": "whether the user has been asked depends on the order of some twenty steps that may each fail; tests give a few names and keys and mock the prompt", "anchors": ["openssh_key/private_key_list.py:PrivateKeyList.pack_bytes", "openssh_key/private_key_list.py:PrivateKeyList.from_bytes", "openssh_key/cipher/factory.py:get_cipher_class", "openssh_key/kdf_options/factory.py:get_kdf_options_class"]}
{"id": "C85", "title": "Long integers and the command's output", "statement": "Python since 3.11 refuses to write integers of more than a configured number of digits (4300 by default). Under such a limit the command prints, for a file that parses, exactly what it prints without the limit if every integer of every key, and of the header, KDF options and check numbers of a private key file, has at most that many digits; otherwise it prints nothing and ends with a ValueError. The warnings and prompts, and the outcome for files that do not parse, do not depend on the limit. So in a file of public keys one key with a longer integer hides all the others, although every line parses. With the default, no integer of at most 14200 bits is affected.", "quantifier": "all limits, files, passphrases, keys and integers; all files of public keys the library writes", "why_tests_cant": "it depends on the size of every integer in the file; the tests do not run the command", "anchors": ["openssh_key/__main__.py:KeyJSONEncoder", "openssh_key/key.py:PublicKey.pack_public_string"]}
{"id": "C86", "title": "Static properties follow overriding", "statement": "A static property such as BLOCK_SIZE, IV_LENGTH, KEY_SIZE or CURVE_NAME, read on a class or on an instance without an attribute of that name, is the result of the first definition of its getter along the method resolution order of the class that is asked. So in a class derived from any class, overriding a getter changes the property and those computed from it (IV_LENGTH from BLOCK_SIZE) for the new class and its subclasses, and nothing for existing classes; a class that overrides nothing has the properties of its base. The properties are not read-only: assigning on a class changes exactly the lookups of that name that get to this class, and assigning on an instance hides the property there. The library's own classes have the block sizes, key, IV and tag lengths, curves and defaults that the other properties are stated with; the cipher none has no key length, and only the authenticated ciphers have a tag length. A name that no class along the order defines raises AttributeError, on an instance unless it is in the instance's own dictionary.", "quantifier": "all class hierarchies that class statements can make on top of one another, all classes, getters, names, values and instances", "why_tests_cant": "tests read the properties of a handful of classes; subclasses written by users, and the interplay of multiple bases, are unlimited", "anchors": ["openssh_key/utils.py:readonly_static_property", "openssh_key/cipher/common.py:InitializationVectorCipher", "openssh_key/cipher/confidentiality.py", "openssh_key/cipher/integrity.py"]}
{"id": "C87", "title": "Abstract classes", "statement": "A class is abstract (is_abstract, and refusal to make an instance) exactly if for some name the first definition along its method resolution order is an abstract method; a class derived from one class is concrete exactly if it has no abstract method of its own and defines every name for which its base has one. The method resolution order begins with the class, has exactly its ancestors, each once, and keeps the order of the bases and of each base's own order; a class statement succeeds exactly if such an order exists. All class statements of the library succeed; exactly 26 of its classes are abstract, among them the CTR, CBC and 3DES ciphers, which leave get_iv_length abstract; for each it is known which methods a subclass has to define.", "quantifier": "all class hierarchies that class statements can make, all classes, bases and methods", "why_tests_cant": "it is about subclasses that do not exist yet; tests try to instantiate a few classes", "anchors": ["openssh_key/utils.py:is_abstract", "openssh_key/key_params/common.py:PublicKeyParams", "openssh_key/cipher/common.py:Cipher", "openssh_key/kdf_options/common.py:KDFOptions", "openssh_key/key.py:Key"]}
{"id": "C88", "title": "The command line", "statement": "The command accepts exactly the command lines that consist of one file name and any number of --passphrase options, abbreviated to at least --p or not, with the passphrase after '=' or as the next argument; the file name may be preceded or, at the end, followed by '--'. It then opens the named file and no other and prints what it prints for its contents with the passphrase of the last option, or with none if there is no option. Every other command line ends the program before any file is opened, with status 0 only if an argument asks for the help. A passphrase after '=' is passed on as it is, whatever it is. A passphrase in its own argument is passed on exactly if it does not look like an option: it does not begin with '-', or is '-', or is a negative number or contains a space without beginning like an option of the program; otherwise the program ends.", "quantifier": "all lists of argument strings, all file names, all passphrases, all contents of files", "why_tests_cant": "tests call the parser with a few command lines; which strings are taken for options depends on all their characters and neighbours", "anchors": ["openssh_key/__main__.py"]}
{"id": "C89", "title": "Encrypting twice, and changing what is encrypted", "statement": "By default pack_bytes draws a new salt for every file, writes it with 16 rounds into the file and derives key and initialization vector from it, so two files share them only if the salts coincide. With retain_kdf_options_if_present=True they are shared by all files written with the same passphrase: under the CTR, GCM and ChaCha20 ciphers the encrypted sections of two such files then differ exactly where and how their plaintexts differ, so that both files together give away the exclusive or of the private keys. Files under the CTR ciphers can be changed without the passphrase: altering the encrypted section where and how two private sections of equal length differ turns a file with the one into a file that parses, with the same passphrase, to the other.", "quantifier": "all pairs of key lists, passphrases, random values, index selections and flags; all files that parse, and all private sections of the same length for the same public keys", "why_tests_cant": "a statement about every pair of files and every alteration; tests look at single files", "anchors": ["openssh_key/private_key_list.py PrivateKeyList.pack_bytes, from_bytes", "openssh_key/cipher/confidentiality.py", "openssh_key/cipher/integrity.py", "openssh_key/kdf_options/bcrypt_options.py"]}
{"id": "C90", "title": "Interrupting the passphrase prompt", "statement": "If the passphrase prompt raises an exception (the user presses Ctrl-C or Ctrl-D, or the terminal is gone), packing passes that exception on unchanged. Parsing a private key file, its text form and the command on such a file raise ValueError whatever the exception was, KeyboardInterrupt and SystemExit included. In both cases the prompt was shown exactly once, nothing is warned about or printed after it and no key is returned.", "quantifier": "every file, text, list of keys, selection, and every exception that the prompt can raise", "why_tests_cant": "tests replace the prompt by an answer; the exceptions, and the state at which they arrive, are not enumerable", "anchors": ["openssh_key/private_key_list.py:PrivateKeyList.from_bytes", "openssh_key/private_key_list.py:PrivateKeyList.pack_bytes", "openssh_key/__main__.py"]}
{"id": "C91", "title": "Interrupted writing", "statement": "If writing a record or a sequence of records to a stream ends early, because a value is refused or because an exception such as KeyboardInterrupt comes from outside at any time, the stream is as if only some first records and some first fields of the next one had been written: no field is written in part. Reading the data back as a sequence of records then gives exactly the records that were written completely, and no error, so that the early end goes unnoticed.", "quantifier": "every format, every sequence of records, every stream, every moment at which the exception can come", "why_tests_cant": "every crash point of every write; tests do not interrupt the code", "anchors": ["openssh_key/pascal_style_byte_stream.py:write_from_format_instruction", "openssh_key/pascal_style_byte_stream.py:write_from_format_instructions_dict", "openssh_key/pascal_style_byte_stream.py:write_repeatedly_from_format_instructions_dict"]}
{"id": "C92", "title": "What CBC gives away, and what ciphers without authentication let be changed", "statement": "Files written with the same CBC cipher, passphrase and (with retain_kdf_options_if_present=True) KDF options have encrypted sections that begin with the same blocks exactly as far as their private sections do. If the encrypted section of a file is changed and both files are read with the same passphrase, then wherever the two sections have the same block the decrypted bytes differ exactly as the blocks before it do, and are equal if those are equal or there are none: a change reaches only its own block and the next one, and the next one in exactly the changed bits. With any cipher without a tag (none, CBC, CTR), any whole blocks can be appended to the encrypted section without knowing the passphrase: the file is read to the same keys and what the blocks decrypt to is taken for padding.", "quantifier": "all pairs of key lists, passphrases, random values, index selections and flags; all pairs of files that parse and differ in the encrypted section; all appended blocks", "why_tests_cant": "a statement about every pair of files and every alteration; tests look at single files", "anchors": ["openssh_key/private_key_list.py PrivateKeyList.pack_bytes, from_bytes", "openssh_key/cipher/confidentiality.py", "openssh_key/cipher/common.py"]}
{"id": "C93", "title": "Packing while other threads run", "statement": "While one thread packs a private key list, other threads can run between any two accesses to an object. If they leave the list, its header, its options and its keys as they are, pack_bytes returns, warns and raises exactly as without them, whatever they do to other objects. If they also append pairs to the list, pack_bytes gives exactly what packing the list as it was at one moment of the call gives (at the beginning of the call, if indices are given). Whatever they do, if the call returns and makes its own KDF options, the result is the file of some list, with the number of keys it announces, in which every value is one that the packed object had during the call. More than that does not hold: if a pair is replaced during the call, the public key of one pair can be written with the private key of another, which is the file of the list at no moment; and if retained options are changed during the call, the file cannot be read with its passphrase.", "quantifier": "every history of the objects, every list of commands of the other threads, every schedule, all arguments of pack_bytes", "why_tests_cant": "every interleaving of threads; tests run one thread", "anchors": ["openssh_key/private_key_list.py PrivateKeyList.pack_bytes", "openssh_key/key.py Key.pack_public_bytes, PrivateKey.pack_private_bytes", "openssh_key/pascal_style_byte_stream.py write_from_format_instructions_dict"]}
{"id": "C94", "title": "Several threads on one stream", "statement": "When several threads call methods of one PascalStyleByteStream and the interpreter switches between any two operations on it: a call during which no other thread runs is the plain method. If the threads only write single fields and read single fields of fixed size (also as records of one field), then for every schedule the contents, the position and all results are as if the calls had been made one after the other, each thread's in its order, whatever the threads decide from earlier results. If the threads write records of several fields, what is written is a sequence of whole fields, in which each thread's fields come in their order: all of them if its call returns, those before the first that cannot be written if it raises. Records are not kept together: two records written at the same time can be read back as two records that no one has written; and two threads that read byte strings at the same time can get values that are not in the stream.", "quantifier": "any number of threads, all programs, all schedules, all formats, values and stream contents", "why_tests_cant": "every interleaving and every program of the threads", "anchors": ["openssh_key/pascal_style_byte_stream.py read_fixed_bytes, read_pascal_bytes, read_from_format_instruction, read_from_format_instructions_dict, write_from_format_instruction, write_from_format_instructions_dict, write_repeatedly_from_format_instructions_dict"]}
{"id": "C95", "title": "Comparing and searching pairs and lists", "statement": "Two key pairs are == iff their keys are of the same kinds with the same header, parameters, footer and clear values, in any order of entries, and != is the opposite; likewise plain tuples of keys. A pair never equals a plain tuple; a pair and the plain tuple of its two keys are neither == nor !=. A private key list equals another list, plain or not, iff it has the same pairs in the same order; this is an equivalence and does not look at the header, cipher or KDF. Equal lists whose cipher, KDF and KDF options are the same pack to the same bytes or raise the same exception; if these are not the same, equal lists can give an encrypted file and one that anybody can read. index gives the first position within its limits with an equal pair and raises ValueError if there is none, in says whether there is one and count says how many there are. <, <=, > and >= of lists, and of pairs and tuples of keys, compare the lengths if one begins with the other, and raise TypeError otherwise.", "quantifier": "all keys, pairs, tuples and lists, all limits of the search, all arguments of pack_bytes, all primitives", "why_tests_cant": "all contents of all lists, and all ways to pack them", "anchors": ["openssh_key/private_key_list.py PublicPrivateKeyPair.__eq__, PrivateKeyList, pack_bytes", "openssh_key/key.py Key.__eq__"]}
{"id": "C96", "title": "Reading and writing anywhere in a stream", "statement": "seek goes to the position given, from the beginning, the current position or the end; it refuses a negative position from the beginning, other origins and numbers that are too large, and otherwise stops at the beginning; tell returns the position and truncate keeps the first bytes without moving the position. After anything that neither writes nor truncates, seeking back to the earlier position restores the stream, so the same is read again. What a successful read returns depends only on the bytes between the positions before and after it, wherever and in whatever file they stand. A write either fails the same everywhere and changes nothing, or puts the same bytes at the position, filling a gap behind the end with zero bytes, and changes no other byte; a write of records puts bytes in one place, even if it raises. So a value or record can be read after any history of operations that does not write over it or cut it off; if it is cut off, even by one byte, reading it raises EOFError. Values written at places that do not overlap can all be read at their places afterwards, whatever was there, and the order in which they are written does not matter.", "quantifier": "all stream contents and positions, all formats and values, all histories of seek, tell, truncate, getvalue and the reading and writing methods, including calls that raise", "why_tests_cant": "all histories, positions and contents", "anchors": ["openssh_key/pascal_style_byte_stream.py PascalStyleByteStream (io.BytesIO), read_from_format_instruction, read_from_format_instructions_dict, write_from_format_instruction, write_from_format_instructions_dict, write_repeatedly_from_format_instructions_dict"]}
{"id": "C97", "title": "Parameters as dictionaries", "statement": "The parameters of a key, and its header, footer and clear values, obey the rules of Python mappings under assignment, del, pop, popitem, clear, update, |= and setdefault: each changes just the entries it is about, keeps the order of the others, and changes nothing if it raises; popitem takes the last entry of a dict but the first of parameters. Whatever a program does to them, packing looks only at the current values of the fields of the key's type: not at the order of entries, at entries that are no fields, or at how they got there. A key that lacks a field cannot be packed; if it is the only fault, KeyError names it; a private field is not needed for the public bytes; putting the value back gives the same bytes as before. params | other has the entries of both, the right one's prevailing, is of the class of the parameters (the left ones, if both are), and is checked like new parameters; a copy is not checked. Parameters equal any parameters or dict with the same entries, whatever the class. fromkeys always raises TypeError.", "quantifier": "all key types, keys, entries and values, all programs of edits, including edits that raise", "why_tests_cant": "all programs and all contents", "anchors": ["openssh_key/pascal_style_byte_stream.py PascalStyleDict", "openssh_key/key.py Key.__init__, pack_public_bytes, pack_private_bytes, pack_public_string", "openssh_key/utils.py BaseDict"]}
{"id": "C98", "title": "Copies, shared dictionaries and what a change reaches", "statement": "In any program that makes, copies (copy.copy, copy.deepcopy) and changes keys and lists and assigns to their attributes: changing a dictionary in place is seen through just the attributes that refer to it. copy.copy of a key is an equal key that shares its four dictionaries, and shows the same as the key in every later state until an attribute of one of them is assigned. Assigning a dictionary to an attribute makes the key or list have that very object, so that it follows all later changes to it, and changes nothing else. copy.deepcopy of a key, list or dictionary shows the same as the original, keeps the sharing inside it, and has nothing in common with what was there before: no program that changes only older objects changes the copy, and none that changes only newer ones changes an older object. In general, a program that changes nothing that can be reached from an object leaves what is seen there.", "quantifier": "all histories of commands on all objects, including commands that raise", "why_tests_cant": "all histories and all ways in which objects can share others", "anchors": ["openssh_key/key.py Key.__init__", "openssh_key/private_key_list.py PrivateKeyList.__init__, PublicPrivateKeyPair"]}
{"id": "C99", "title": "How much parsing reads", "statement": "Parsing an untrusted key does an amount of work that is linear in its size, whatever lengths and numbers of keys it declares and however certificates are nested in it. PublicKey.from_bytes of n bytes calls read of a byte stream at most n/2 + 34 times, including the reads of the authorities' keys inside each other, and at most n times if it succeeds; PrivateKey.from_bytes at most n + 2 times; PrivateKeyList.from_bytes at most n + 32 times, including the reads from the decrypted bytes and from the KDF options. Principals and options of a certificate are read in at most n/2 + 1 reads of n bytes. In particular the key of a certificate's authority is parsed once for each certificate, so that nesting does not multiply the work.", "quantifier": "all byte strings, passphrases, environments and primitives with the lengths of real ones, whether parsing succeeds or raises", "why_tests_cant": "an upper bound over all inputs, including hostile ones; the worst case is a nesting or a declared number that no test has", "anchors": ["openssh_key/key.py Key.from_bytes, Key.from_byte_stream", "openssh_key/private_key_list.py PrivateKeyList.from_bytes", "openssh_key/key_params/cert.py CertPublicKeyParams.check_params_are_valid", "openssh_key/pascal_style_byte_stream.py PascalStyleByteStream.read_fixed_bytes, read_repeatedly_from_format_instructions_dict"]}
{"id": "C100", "title": "What parsing keeps", "statement": "What is parsed is no larger than what it is parsed from, whatever lengths and numbers are declared in it. The values of a key made by from_bytes of n bytes (type, parameters, comment, and the rest kept in clear) need at most n bytes together, counting a str by its UTF-8 encoding and a number by its magnitude. The public and private keys of a list made by PrivateKeyList.from_bytes of n bytes need at most n bytes together and there are at most n/4 pairs; with everything else that the list keeps (the bytes themselves, the ciphertext, the plaintext, the header, the KDF options, the padding) it needs at most 4n bytes.", "quantifier": "all byte strings, kinds of keys, passphrases, environments and ciphers with the lengths of real ones", "why_tests_cant": "a bound over all inputs, including hostile ones with declared lengths that do not match what is there", "anchors": ["openssh_key/key.py Key.from_bytes", "openssh_key/private_key_list.py PrivateKeyList.from_bytes", "openssh_key/pascal_style_byte_stream.py PascalStyleByteStream.read_from_format_instructions_dict"]}
{"id": "C101", "title": "Which warnings a process shows", "statement": "Python shows a warning only if its filter's action and what the process has issued so far allow it. By the default action a call shows exactly those of its warnings whose text and place in the source no call of the process, itself included, has issued before; by the action module the text and module count, by once the text, by always every warning is shown and by ignore none. For each warning issued in a process one with the same text has been shown, but a call that issues nothing new, such as a repeated one, shows nothing. In a process that has made no other call, every warning that a call issues is shown, once; so the command names each line that it skips. But not every defect is shown as often as it occurs: of two different keys that each say a type other than their bytes do, the second is parsed without a word, in one file as in two calls. Whatever a process has done, after it sets its filter (to an action other than once, whose texts are remembered for good) it shows what a new process with this filter shows.", "quantifier": "all histories of calls and changes of the filter, with all sequences of warnings, and all actions of the filter; all files without private keys", "why_tests_cant": "it depends on the whole history of the process; test frameworks reset the registry before every test", "anchors": ["openssh_key/key.py Key.from_bytes, Key.from_string (warnings.warn)", "openssh_key/private_key_list.py PrivateKeyList.from_bytes (warnings.warn)", "openssh_key/pascal_style_byte_stream.py PascalStyleByteStream.check_dict_matches_format_instructions_dict", "openssh_key/key_params (warnings.warn)", "openssh_key/__main__.py main"]}
{"id": "C102", "title": "What packing raises, and for what", "statement": "pack_public_bytes of a key of a supported type, public or private and however its mappings have been edited, raises exactly if a field of the header or of the public parameters is missing or cannot be written; the exception is that of the first such field: a KeyError with the field's name if it is missing, a ValueError for a value of the wrong type in a length-prefixed field, a struct.error for one of the wrong type or out of range in a fixed-size field, a UnicodeEncodeError for text without a UTF-8 encoding, an OverflowError for an integer whose length is computed too small or for a value too long for its length prefix. pack_private_bytes does the same with the private parameters and the comment, pack_public_string raises what pack_public_bytes raises. Packing a list fails exactly if one of these causes is there, and what it raises is the exception of such a cause: an unknown cipher or KDF, options that cannot be written, too many or too long keys, an index out of range, a key that cannot be packed, a passphrase prompt that fails, a passphrase without an encoding, or no key to derive (no KDF, empty passphrase, empty salt, zero rounds). If there are several, the first in this order decides: the KDF's name, the options field by field, the cipher's name as text, the length of the salt, the number of keys, each index with its public key in the order asked for, each private key in that order, whether the cipher is known, the prompt, the encoding of the passphrase, deriving the key, the size of the encrypted part. With keys of supported types only KeyError, ValueError, struct.error, UnicodeEncodeError, OverflowError, IndexError and what asking for the passphrase raises are possible. The documentation names IndexError alone, which is not all.", "quantifier": "all keys of all supported types with any header, parameters, comment; all lists, passphrases, indices and options; all primitives that keep their documented sizes", "why_tests_cant": "tests try a few faults one at a time; which exception comes first, and that there is no other, is a statement about all values of all fields together", "anchors": ["openssh_key/key.py Key.pack_public_bytes, Key.pack_public_string, PrivateKey.pack_private_bytes", "openssh_key/private_key_list.py PrivateKeyList.pack_bytes, PrivateKeyList.pack_string", "openssh_key/pascal_style_byte_stream.py PascalStyleByteStream.write_from_format_instruction, write_from_format_instructions_dict", "openssh_key/kdf_options/bcrypt_options.py BcryptKDFOptions.derive_key", "openssh_key/cipher/factory.py get_cipher_class"]}
{"id": "C103", "title": "What parsing a key raises, and for what", "statement": "Reading a field fails exactly if the bytes left do not begin with a value of its type: with an EOFError if they end too early (in the length or in what it counts; the text of the exception says whether nothing at all was left), an OverflowError if the length is more than a bytes object can have, a UnicodeDecodeError with the bytes for text that is not UTF-8. Reading several fields raises what the first unreadable one does. PrivateKey.from_bytes raises exactly for one of these reasons: the type cannot be read; the type is unknown, a KeyError with it; the type is a certificate's, a KeyError with a message; a parameter or the comment cannot be read. PublicKey.from_bytes raises for the same reasons without the last but one, and for two more: a certificate that was read has, in its principals, critical options or extensions (in this order), a text that is not UTF-8; or it has none and its authority's type is unknown (or the authority is itself a certificate for which a KeyError is raised). Nothing else that is wrong with an authority or with these lists raises. Key.from_string raises IndexError without a space, otherwise what decoding the base64 text raises, otherwise what from_bytes raises.", "quantifier": "all byte strings up to sys.maxsize, all texts, all formats of field types; public and private keys of all types; certificates whose authorities are certificates to any depth", "why_tests_cant": "a converse is claimed: no other input raises, and of several faults the first decides, at every length and nesting", "anchors": ["openssh_key/key.py Key.from_byte_stream, Key.from_bytes, Key.from_string", "openssh_key/pascal_style_byte_stream.py PascalStyleByteStream.read_fixed_bytes, read_pascal_bytes, read_from_format_instruction, read_from_format_instructions_dict", "openssh_key/key_params/cert.py CertPublicKeyParams.check_params_are_valid", "openssh_key/key_params/factory.py get_private_key_params_class"]}
{"id": "C104", "title": "Which base64 texts are accepted, and as what", "statement": "In a public key line and between the markers of a private key file, base64 text is decoded exactly as follows. Text with a character that is not ASCII is refused by ValueError. Otherwise characters outside the alphabet are passed over, and the text is read up to the first '=' that completes a group of four characters (after three, or a second one after two); the result is the whole octets of the 6-bit numbers read, and what bits are left over is dropped, zero or not. If there is no such '=' and the number of characters of the alphabet is not a multiple of four, binascii.Error is raised; nothing else is refused. So whatever follows complete padding is not read, without a warning, and two '=' at the end are enough for every ASCII text whose number of data characters is not one more than a multiple of four.", "quantifier": "all texts", "why_tests_cant": "acceptance and refusal are characterised for all texts in both directions; tests decode a few well-formed ones", "anchors": ["openssh_key/key.py Key.from_string (base64.b64decode)", "openssh_key/private_key_list.py PrivateKeyList.from_string (base64.b64decode)"]}
{"id": "C105", "title": "Which texts are accepted, and where a file of public keys is given up", "statement": "PrivateKeyList.from_string returns a list exactly if the first line of the text is the BEGIN line, the last is the END line, and the lines between are together base64 text (as in C104) of a file that describes the list (as in C58). Every other text raises ValueError or a subclass, and the empty text IndexError. PublicKey.from_string raises exactly: IndexError without a space; ValueError if the word after the first space is not ASCII; binascii.Error if its base64 groups are incomplete; otherwise what parsing the decoded bytes raises (C103). A line is accepted if and only if none of these holds. The command line tool, given a file of public keys, raises an exception exactly if some line has no space or raises KeyError, and it is what the first such line raises: lines that fail for any other reason are reported and passed over. Without such a line it returns a key for every line that can be read, in order, and the lines it reports are exactly the others.", "quantifier": "all texts up to sys.maxsize characters, all passphrases and ciphers, all numbers of lines", "why_tests_cant": "acceptance is characterised for every text in both directions, and the deciding line for every file", "anchors": ["openssh_key/private_key_list.py PrivateKeyList.from_string", "openssh_key/key.py Key.from_string", "openssh_key/__main__.py"]}
