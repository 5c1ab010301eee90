{"id": "C01", "title": "base64url round trip", "statement": "Decoding the library's base64url encoding of any byte string gives that byte string back: b64d(b64e(b)) == b.", "quantifier": "every byte string b, of any length", "why_tests_cant": "infinitely many byte strings; three residue classes of the length interact with padding removal and re-adding", "anchors": ["src/jwkest/__init__.py:b64e", "src/jwkest/__init__.py:b64d", "src/jwkest/__init__.py:add_padding"]}
{"id": "C02", "title": "base64url output alphabet and length", "statement": "b64e(b) consists only of A-Z a-z 0-9 - _ (so never '.', '=' or whitespace) and has exactly ceil(4*len(b)/3) characters; hence a token segment can never contain a separator.", "quantifier": "every byte string b", "why_tests_cant": "must hold for every byte of every input, not just samples", "anchors": ["src/jwkest/__init__.py:b64e"]}
{"id": "C03", "title": "b64d rejects everything that is not base64url", "statement": "b64d raises instead of returning whenever the input (after removing trailing '=') contains a character outside the base64url alphabet.", "quantifier": "every byte string given to b64d", "why_tests_cant": "negative property over all malformed inputs", "anchors": ["src/jwkest/__init__.py:b64d", "src/jwkest/__init__.py:_b64_re"]}
{"id": "C04", "title": "unpadded base64url text decodes canonically", "statement": "If b64d accepts two different unpadded inputs, the decoded byte strings differ, i.e. decoding is injective; equivalently re-encoding the decoded bytes gives the input back.", "quantifier": "every pair of accepted unpadded inputs", "why_tests_cant": "pairs of inputs; malleability is invisible to positive tests", "anchors": ["src/jwkest/__init__.py:b64d", "src/jwkest/__init__.py:b64e"]}
{"id": "C05", "title": "integer codec round trip", "statement": "base64_to_long(long_to_base64(n)) == n, and the text is unpadded base64url of the minimal big-endian representation of n.", "quantifier": "every integer n >= 0", "why_tests_cant": "unbounded integers", "anchors": ["src/jwkest/__init__.py:long_to_base64", "src/jwkest/__init__.py:base64_to_long", "src/jwkest/__init__.py:long2intarr", "src/jwkest/__init__.py:intarr2long"]}
{"id": "C06", "title": "base64url_to_long is strict", "statement": "base64url_to_long raises for every input that is not base64url text (the docstring says it 'really checks').", "quantifier": "every byte string", "why_tests_cant": "negative property over all malformed inputs", "anchors": ["src/jwkest/__init__.py:base64url_to_long"]}
{"id": "C07", "title": "constant-time comparison is equality", "statement": "constant_time_compare(a, b) and safe_str_cmp(a, b) return True exactly when a == b.", "quantifier": "every pair of byte strings / strings, of equal or different lengths", "why_tests_cant": "a lossy accumulator (OR instead of XOR, wrong length test) can agree with equality on any finite sample", "anchors": ["src/jwkest/__init__.py:constant_time_compare", "src/jwkest/__init__.py:safe_str_cmp"]}
{"id": "C08", "title": "long2intarr / intarr2long are inverse", "statement": "intarr2long(long2intarr(n)) == n for n > 0, and long2intarr(intarr2long(a)) is a without its leading zero bytes.", "quantifier": "every positive integer and every non-empty byte array", "why_tests_cant": "unbounded integers and arrays", "anchors": ["src/jwkest/__init__.py:long2intarr", "src/jwkest/__init__.py:intarr2long"]}
{"id": "C09", "title": "long2hexseq encodes every non-negative integer", "statement": "long2hexseq(n) returns the big-endian byte string whose integer value is n.", "quantifier": "every integer n >= 0", "why_tests_cant": "half of all integers have an odd number of hex digits", "anchors": ["src/jwkest/__init__.py:long2hexseq"]}
{"id": "C10", "title": "JWT pack/unpack round trip", "statement": "Unpacking a packed token yields exactly the byte parts that were packed and the same header object; the token has 1+len(parts) dot-separated segments.", "quantifier": "every JSON header object and every list of byte parts", "why_tests_cant": "unbounded structures: arbitrary header dictionaries, any number and content of parts", "anchors": ["src/jwkest/jwt.py:JWT.pack", "src/jwkest/jwt.py:JWT.unpack", "src/jwkest/jwt.py:b64encode_item", "src/jwkest/jwt.py:split_token"]}
{"id": "C11", "title": "re-packing an unpacked token is the identity", "statement": "For every token that unpack accepts, pack() without arguments returns the same token text, so forwarding a token never alters it.", "quantifier": "every accepted token, including non-canonical base64", "why_tests_cant": "over all tokens an adversary may craft", "anchors": ["src/jwkest/jwt.py:JWT.pack", "src/jwkest/jwt.py:JWT.unpack"]}
{"id": "C12", "title": "split_token loses nothing", "statement": "split_token either raises BadSyntax (no dot) or returns segments without dots whose dot-join is the input.", "quantifier": "every byte string", "why_tests_cant": "every number and position of dots", "anchors": ["src/jwkest/jwt.py:split_token"]}
{"id": "C13", "title": "payload interpretation is a fixed function of header and bytes", "statement": "payload() returns the JSON value of part 1 when the header has no cty or a cty equal to 'jwt' in any case and the text is JSON, the decoded text when it is not JSON or cty differs, and the raw bytes when not UTF-8; in particular a text payload that happens to be JSON is not returned as text.", "quantifier": "every header and payload", "why_tests_cant": "over all payload bytes", "anchors": ["src/jwkest/jwt.py:JWT.payload", "src/jwkest/__init__.py:as_unicode"]}
{"id": "C14", "title": "sign_compact then verify_compact succeeds", "statement": "A token produced by sign_compact with any supported algorithm and a matching key verifies with that key set and returns the payload view of the signed message.", "quantifier": "every message, key, kid/alg/use annotation, protected header and supported algorithm", "why_tests_cant": "unbounded messages, keys and headers; ECDSA needs arithmetic facts for every nonce", "anchors": ["src/jwkest/jws.py:JWS.sign_compact", "src/jwkest/jws.py:JWS.verify_compact", "src/jwkest/jws.py:SIGNER_ALGS"]}
{"id": "C15", "title": "verify_compact soundness", "statement": "If verify_compact returns and the token's algorithm is not none, then some key among the supplied ones was selected whose signature check succeeded on exactly the first two segments of the presented token and the decoded third segment.", "quantifier": "every token, key list, instance state and option setting", "why_tests_cant": "adversarial tokens; every control-flow path must be covered", "anchors": ["src/jwkest/jws.py:JWS.verify_compact_verbose", "src/jwkest/jws.py:JWx.pick_keys"]}
{"id": "C16", "title": "algorithm none needs opt-in", "statement": "Without allow_none, verify_compact never returns for a token whose header algorithm is null, missing or 'none' in any letter case.", "quantifier": "every token, key list and instance state", "why_tests_cant": "the classic alg:none bypass lives in unusual spellings", "anchors": ["src/jwkest/jws.py:JWS.verify_compact_verbose"]}
{"id": "C17", "title": "no key-type confusion", "statement": "The key that verifies a token has the key type of the token's algorithm family: HS* only oct, RS*/PS* only RSA, ES* only EC; in particular an HS* token is never checked with an RSA or EC public key.", "quantifier": "every token, key list and state", "why_tests_cant": "RS/HS confusion attacks are adversarial inputs", "anchors": ["src/jwkest/jws.py:JWx.pick_keys", "src/jwkest/jws.py:alg2keytype"]}
{"id": "C18", "title": "a token without a usable algorithm never verifies", "statement": "If the header has no 'alg' or an algorithm not in the supported table, verify_compact raises.", "quantifier": "every such token, key list and state", "why_tests_cant": "over all unknown algorithm strings", "anchors": ["src/jwkest/jws.py:JWS.verify_compact_verbose", "src/jwkest/jws.py:SIGNER_ALGS"]}
{"id": "C19", "title": "expected algorithm is enforced", "statement": "If sigalg is given, or the instance already carries an algorithm, verify_compact (not none) returns only for tokens with that algorithm.", "quantifier": "every token, key list, state and expected algorithm", "why_tests_cant": "negative property over all tokens", "anchors": ["src/jwkest/jws.py:JWS.verify_compact_verbose"]}
{"id": "C20", "title": "an instance is pinned to the first algorithm it checks", "statement": "Along any sequence of verify_compact calls on one instance, after one call got past the algorithm checks with algorithm A, no later call returns for a token with another (non-none) algorithm.", "quantifier": "every sequence of calls with arbitrary tokens and key lists", "why_tests_cant": "histories of unbounded length", "anchors": ["src/jwkest/jws.py:JWS.verify_compact_verbose"]}
{"id": "C21", "title": "kid, use and alg annotations restrict key selection", "statement": "Every key that sign_compact or verify_compact uses matches the non-empty kid in force (the instance's, else the token header's), the algorithm annotation if it has one, and is annotated for signing if it has a use annotation.", "quantifier": "every key list, instance state and token", "why_tests_cant": "every combination of annotations", "anchors": ["src/jwkest/jws.py:JWx.pick_keys"]}
{"id": "C22", "title": "key selection is a filter", "statement": "pick_keys returns, in order, exactly the supplied keys satisfying the documented conditions (type, kid, use, alg): it neither invents, reorders, duplicates nor drops keys.", "quantifier": "every key list, instance state, use and alg", "why_tests_cant": "all lists of any length", "anchors": ["src/jwkest/jws.py:JWx.pick_keys"]}
{"id": "C23", "title": "signature bytes are bound to the token text", "statement": "For HMAC algorithms and one key, an accepted token's signature segment is the base64url text of the HMAC of the first two segments: no other token text with the same first two segments is accepted.", "quantifier": "every pair of tokens", "why_tests_cant": "malleability concerns pairs of adversarial inputs", "anchors": ["src/jwkest/jws.py:HMACSigner.verify", "src/jwkest/__init__.py:b64d"]}
{"id": "C24", "title": "tokens with the wrong number of segments are rejected", "statement": "verify_compact raises for every token that does not have exactly three segments.", "quantifier": "every token", "why_tests_cant": "every segment count", "anchors": ["src/jwkest/jws.py:JWS.verify_compact_verbose", "src/jwkest/jws.py:JWSig"]}
{"id": "C25", "title": "sign_compact refuses to sign without a suitable key", "statement": "If the chosen algorithm is not none and no supplied key fits, sign_compact raises NoSuitableSigningKeys; it never falls back to an unsigned token.", "quantifier": "every key list, state and algorithm", "why_tests_cant": "all combinations", "anchors": ["src/jwkest/jws.py:JWS.alg_keys", "src/jwkest/jws.py:JWS.sign_compact"]}
{"id": "C26", "title": "sign_compact header contents", "statement": "The header of a produced token is the caller's protected header overridden by the algorithm, by the key's kid when it has one, and by the instance's typ.", "quantifier": "every protected header, key and instance", "why_tests_cant": "arbitrary dictionaries with colliding names", "anchors": ["src/jwkest/jws.py:JWS.alg_keys", "src/jwkest/jws.py:JWS.sign_compact"]}
{"id": "C27", "title": "verify_json requires every listed signature", "statement": "If verify_json returns, then every entry of 'signatures' (or the single flattened one) verified and all give the returned payload; at least one signature was verified.", "quantifier": "every JWS JSON text, key list and options", "why_tests_cant": "all numbers of signatures including none", "anchors": ["src/jwkest/jws.py:JWS.verify_json"]}
{"id": "C28", "title": "sign_json then verify_json succeeds", "statement": "The JSON serialization produced by sign_json (general or flattened, any number of signatures) verifies with the same keys and returns the payload view.", "quantifier": "every message, header list and key list with a matching key", "why_tests_cant": "unbounded header lists", "anchors": ["src/jwkest/jws.py:JWS.sign_json", "src/jwkest/jws.py:JWS.verify_json"]}
{"id": "C29", "title": "only caller-supplied keys are trusted", "statement": "When the caller supplies no keys and no jwk/jku/x5u, verification cannot succeed for a token signed with a key chosen by the sender.", "quantifier": "every token", "why_tests_cant": "adversarial tokens embedding their own key", "anchors": ["src/jwkest/jws.py:JWS.verify_json", "src/jwkest/jws.py:JWx.__init__", "src/jwkest/jws.py:JWx._get_keys"]}
{"id": "C30", "title": "critical header extensions are honoured", "statement": "A token whose protected header has a 'crit' list naming an extension the library does not implement is rejected.", "quantifier": "every token with crit", "why_tests_cant": "negative property over all tokens", "anchors": ["src/jwkest/jws.py:JWx.__init__", "src/jwkest/jws.py:JWS.verify_compact_verbose"]}
{"id": "C31", "title": "token recognition never crashes", "statement": "jws.factory(token) / JWS.is_jws(token) return a result (recognised or not) and do not raise, for any text.", "quantifier": "every text", "why_tests_cant": "all malformed inputs", "anchors": ["src/jwkest/jws.py:JWS.is_jws", "src/jwkest/jws.py:JWS._is_compact_jws", "src/jwkest/jws.py:factory"]}
{"id": "C32", "title": "recognition agrees with the algorithm table", "statement": "For a dotted token, is_jws returns True exactly when the token unpacks and its header algorithm is null or one of the thirteen supported names.", "quantifier": "every token", "why_tests_cant": "all header values", "anchors": ["src/jwkest/jws.py:JWS._is_compact_jws", "src/jwkest/jws.py:SIGNER_ALGS"]}
{"id": "C33", "title": "jku / x5u key retrieval works", "statement": "With a jku (or x5u) on the instance, the keys fetched from that URL are used for verification.", "quantifier": "every fetched key set", "why_tests_cant": "depends on every shape of the fetched set", "anchors": ["src/jwkest/jws.py:JWx._get_keys", "src/jwkest/jwk.py:KEYS.as_dict"]}
{"id": "C34", "title": "AES key wrap round trip", "statement": "aes_unwrap_key(kek, aes_wrap_key(kek, key)) == key.", "quantifier": "every KEK and every key whose length is a multiple of 8 bytes, any length", "why_tests_cant": "unbounded number of blocks; six rounds of index arithmetic", "anchors": ["src/jwkest/aes_key_wrap.py:aes_wrap_key", "src/jwkest/aes_key_wrap.py:aes_unwrap_key"]}
{"id": "C35", "title": "AES key unwrap integrity", "statement": "aes_unwrap_key accepts exactly the strings that aes_wrap_key produces: if it returns key for a wrapped string w (a positive multiple of 8 bytes), then w == aes_wrap_key(kek, key).", "quantifier": "every KEK and wrapped string", "why_tests_cant": "over all forged strings", "anchors": ["src/jwkest/aes_key_wrap.py:aes_unwrap_key_and_iv", "src/jwkest/aes_key_wrap.py:aes_unwrap_key"]}
{"id": "C36", "title": "key wrap keeps the whole key", "statement": "aes_wrap_key never silently drops part of the key material.", "quantifier": "every key of any length", "why_tests_cant": "lengths that are not multiples of 8", "anchors": ["src/jwkest/aes_key_wrap.py:aes_wrap_key"]}
{"id": "C37", "title": "PKCS#5 padding is inverted by trimming", "statement": "pkcs5trim(pkcs5pad(x)) == x; the padded length is the next positive multiple of 16.", "quantifier": "every byte string", "why_tests_cant": "all lengths mod 16 and all final bytes", "anchors": ["src/jwkest/extra.py:pkcs5pad", "src/jwkest/extra.py:pkcs5trim"]}
{"id": "C38", "title": "PKCS#5 trimming rejects malformed padding", "statement": "pkcs5trim raises for every string that is not the padding of some string.", "quantifier": "every byte string", "why_tests_cant": "negative property", "anchors": ["src/jwkest/extra.py:pkcs5trim"]}
{"id": "C39", "title": "AES-CBC-HMAC round trip", "statement": "aes_cbc_hmac_decrypt(key, iv, aad, *aes_cbc_hmac_encrypt(key, iv, aad, pt)) == pt.", "quantifier": "every plaintext, associated data, 16-byte IV and key of 32, 48 or 64 bytes", "why_tests_cant": "all lengths", "anchors": ["src/jwkest/extra.py:aes_cbc_hmac_encrypt", "src/jwkest/extra.py:aes_cbc_hmac_decrypt"]}
{"id": "C40", "title": "AES-CBC-HMAC authenticates before decrypting", "statement": "aes_cbc_hmac_decrypt returns plaintext only if the tag equals the truncated HMAC, keyed with the first half of the key, of aad || iv || ciphertext || 64-bit bit length of aad; otherwise VerificationFailure and nothing is decrypted.", "quantifier": "every key, iv, aad, ciphertext and tag", "why_tests_cant": "over all forgeries", "anchors": ["src/jwkest/extra.py:aes_cbc_hmac_decrypt"]}
{"id": "C41", "title": "the CBC-HMAC MAC input is unambiguous", "statement": "Two inputs (aad, iv, ciphertext) with 16-byte ivs give the same MAC input only if they are equal.", "quantifier": "every pair of inputs", "why_tests_cant": "pairs of unbounded inputs", "anchors": ["src/jwkest/extra.py:aes_cbc_hmac_encrypt"]}
{"id": "C42", "title": "GF(2^128) multiplication is correct", "statement": "gf_2_128_mul(x, y) is the product of x and y as bit-reflected polynomials over GF(2) modulo 1+x+x^2+x^7+x^128, and stays below 2^128.", "quantifier": "all x, y < 2^128", "why_tests_cant": "2^256 input pairs", "anchors": ["src/jwkest/aes_gcm.py:gf_2_128_mul"]}
{"id": "C43", "title": "GHASH equals its specification", "statement": "The table-driven internal hash equals the NIST definition: a Horner evaluation at the hash key of the zero-padded blocks of aad and text followed by the length block.", "quantifier": "every aad and text", "why_tests_cant": "all lengths, all table indices", "anchors": ["src/jwkest/aes_gcm.py:AES_GCM.__ghash", "src/jwkest/aes_gcm.py:AES_GCM.__times_auth_key", "src/jwkest/aes_gcm.py:AES_GCM.change_key"]}
{"id": "C44", "title": "AES-GCM round trip", "statement": "decrypt(iv, *encrypt(iv, pt, aad), aad) == pt.", "quantifier": "every key, 96-bit iv, plaintext and aad", "why_tests_cant": "all lengths", "anchors": ["src/jwkest/aes_gcm.py:AES_GCM.encrypt", "src/jwkest/aes_gcm.py:AES_GCM.decrypt"]}
{"id": "C45", "title": "AES-GCM authenticates before decrypting", "statement": "decrypt returns a plaintext only if the given tag is the one encrypt would compute for that iv, ciphertext and aad; otherwise InvalidTagException.", "quantifier": "every iv, ciphertext, tag and aad", "why_tests_cant": "over all forgeries", "anchors": ["src/jwkest/aes_gcm.py:AES_GCM.decrypt"]}
{"id": "C46", "title": "one AES-GCM instance never encrypts twice under one IV", "statement": "Along any sequence of encrypt/decrypt/change_key calls on one instance, two successful encryptions between key changes use different IVs.", "quantifier": "every history of calls", "why_tests_cant": "histories of unbounded length", "anchors": ["src/jwkest/aes_gcm.py:AES_GCM.encrypt"]}
{"id": "C47", "title": "AES-GCM uses the key it was given", "statement": "For A128GCM, A192GCM and A256GCM the block cipher is keyed with exactly the content encryption key bytes.", "quantifier": "every 16-, 24- and 32-byte key", "why_tests_cant": "keys with leading zero bytes are rare in samples", "anchors": ["src/jwkest/aes_gcm.py:AES_GCM.change_key", "src/jwkest/jwe.py:JWe.enc_setup"]}
{"id": "C48", "title": "JWE GCM tags are 16 bytes", "statement": "The authentication tag segment of a GCM token decodes to 16 bytes.", "quantifier": "every encryption", "why_tests_cant": "one tag in 256 has a leading zero byte", "anchors": ["src/jwkest/jwe.py:JWe.enc_setup"]}
{"id": "C49", "title": "content encryption round trip", "statement": "_decrypt(enc, key, ctxt, aad, iv, tag) returns msg for every (ctxt, tag) produced by enc_setup with the same enc, key, iv and aad.", "quantifier": "all six enc algorithms, every message, aad, CEK and IV of the right size", "why_tests_cant": "all lengths", "anchors": ["src/jwkest/jwe.py:JWe.enc_setup", "src/jwkest/jwe.py:JWe._decrypt"]}
{"id": "C50", "title": "the protected header is authenticated", "statement": "In every produced token the associated data used for encryption is exactly the text of the token's first segment, and decryption uses the first segment of the presented token.", "quantifier": "every header and algorithm family", "why_tests_cant": "arbitrary header dictionaries", "anchors": ["src/jwkest/jwe.py:JWE_SYM.encrypt", "src/jwkest/jwe.py:JWE_RSA.encrypt", "src/jwkest/jwe.py:JWE_EC.encrypt"]}
{"id": "C51", "title": "JWE.encrypt then JWE.decrypt succeeds", "statement": "JWE(...).decrypt(JWE(msg, ...).encrypt(keys), keys) returns the message bytes for RSA, symmetric and ECDH-ES families when the matching key is first.", "quantifier": "every message, key, enc algorithm and random choice", "why_tests_cant": "unbounded messages and keys; random CEK/IV/ephemeral keys", "anchors": ["src/jwkest/jwe.py:JWE.encrypt", "src/jwkest/jwe.py:JWE.decrypt"]}
{"id": "C52", "title": "any suitable key decrypts", "statement": "If one of several candidate keys is the right one, JWE.decrypt succeeds regardless of its position.", "quantifier": "every key list and token", "why_tests_cant": "orderings of key lists", "anchors": ["src/jwkest/jwe.py:JWE.decrypt"]}
{"id": "C53", "title": "JWE.decrypt honours the expected algorithm", "statement": "When alg is given, JWE.decrypt returns only for tokens with exactly this header algorithm.", "quantifier": "every token and key list", "why_tests_cant": "negative property", "anchors": ["src/jwkest/jwe.py:JWE.decrypt"]}
{"id": "C54", "title": "JWE_SYM and JWE.decrypt require five segments", "statement": "Decryption raises for tokens that do not have exactly five segments.", "quantifier": "every token", "why_tests_cant": "every segment count", "anchors": ["src/jwkest/jwe.py:JWE_SYM.decrypt", "src/jwkest/jwe.py:JWE_RSA.decrypt"]}
{"id": "C55", "title": "compression is undone", "statement": "A message encrypted with zip=DEF is returned decompressed, for every algorithm family that accepts the option.", "quantifier": "every message", "why_tests_cant": "unbounded messages", "anchors": ["src/jwkest/jwe.py:JWE_RSA.encrypt", "src/jwkest/jwe.py:JWE_RSA.decrypt", "src/jwkest/jwe.py:JWE_SYM.decrypt"]}
{"id": "C56", "title": "generated content keys and IVs have the algorithm's sizes", "statement": "_generate_key_and_iv returns a CEK and IV of the size the enc algorithm prescribes, or exactly the caller's values, and raises for unknown algorithms.", "quantifier": "every algorithm name and every choice of cek and iv", "why_tests_cant": "all strings", "anchors": ["src/jwkest/jwe.py:JWe._generate_key_and_iv"]}
{"id": "C57", "title": "Concat KDF output", "statement": "concat_sha256(secret, n, info) has exactly ceil(n/8) bytes and is the prefix of H(1||secret||info) || H(2||secret||info) || ...; the loop terminates.", "quantifier": "every secret, info and length", "why_tests_cant": "all lengths", "anchors": ["src/jwkest/extra.py:concat_sha256"]}
{"id": "C58", "title": "Concat KDF OtherInfo follows RFC 7518", "statement": "The OtherInfo hashed for ECDH-ES is length-prefixed algorithm id, apu and apv followed by the key length.", "quantifier": "every alg, apu, apv and length", "why_tests_cant": "all inputs", "anchors": ["src/jwkest/extra.py:ecdh_derive_key"]}
{"id": "C59", "title": "both sides of ECDH-ES derive the same key", "statement": "The CEK (or KEK) the recipient derives from the token and its private key equals the one the sender derived from the recipient's public key and the ephemeral private key.", "quantifier": "every pair of private keys on a supported curve, every apu/apv", "why_tests_cant": "2^256 keys", "anchors": ["src/jwkest/jwe.py:JWE_EC.enc_setup", "src/jwkest/jwe.py:JWE_EC.dec_setup", "src/jwkest/extra.py:ecdh_derive_key", "src/jwkest/ecc.py:NISTEllipticCurve.dh_z"]}
{"id": "C60", "title": "RSA key serialization round trip", "statement": "keyrep(key.serialize(private=True)) has the same numbers n, e, d, p, q, dp, dq, di, qi and annotations as key.", "quantifier": "every RSA key", "why_tests_cant": "unbounded integers", "anchors": ["src/jwkest/jwk.py:RSAKey.serialize", "src/jwkest/jwk.py:RSAKey.deserialize", "src/jwkest/jwk.py:keyrep"]}
{"id": "C61", "title": "EC key serialization round trip", "statement": "keyrep(key.serialize(private)) has the same curve, x, y, (d when private) and annotations as key.", "quantifier": "every EC key", "why_tests_cant": "unbounded integers; bytes/str handling", "anchors": ["src/jwkest/jwk.py:ECKey.serialize", "src/jwkest/jwk.py:ECKey.deserialize", "src/jwkest/jwk.py:keyrep"]}
{"id": "C62", "title": "symmetric key serialization round trip", "statement": "keyrep(key.serialize()) holds the same secret bytes and annotations.", "quantifier": "every byte string", "why_tests_cant": "all lengths", "anchors": ["src/jwkest/jwk.py:SYMKey.serialize", "src/jwkest/jwk.py:SYMKey.__init__", "src/jwkest/jwk.py:keyrep"]}
{"id": "C63", "title": "public serialization leaks no private RSA/EC numbers", "statement": "serialize() and KEYS.dump_jwks() output for RSA and EC keys is a function of the public part only: keys that differ only in private numbers serialize identically.", "quantifier": "every pair of keys with equal public part", "why_tests_cant": "non-interference is a two-run property", "anchors": ["src/jwkest/jwk.py:RSAKey.serialize", "src/jwkest/jwk.py:ECKey.serialize", "src/jwkest/jwk.py:KEYS.dump_jwks"]}
{"id": "C64", "title": "dumping a key set reveals no secrets", "statement": "KEYS.dump_jwks() never reveals secret key material.", "quantifier": "every key set", "why_tests_cant": "every key type", "anchors": ["src/jwkest/jwk.py:KEYS.dump_jwks", "src/jwkest/jwk.py:SYMKey.serialize"]}
{"id": "C65", "title": "make_public_copy drops private parts", "statement": "make_public_copy(key) carries no private key material for any key class.", "quantifier": "every key", "why_tests_cant": "every key class", "anchors": ["src/jwkest/jwk.py:make_public_copy"]}
{"id": "C66", "title": "thumbprint is the RFC 7638 thumbprint", "statement": "thumbprint(h) hashes the lexicographically ordered required members (RSA: e,kty,n; EC: crv,kty,x,y; oct: k,kty) with no whitespace and depends on nothing else.", "quantifier": "every key", "why_tests_cant": "all keys; independence of annotations", "anchors": ["src/jwkest/jwk.py:Key.thumbprint"]}
{"id": "C67", "title": "key equality is an equivalence", "statement": "== on keys of one class is reflexive, symmetric and transitive and holds exactly when all public members are equal.", "quantifier": "all keys", "why_tests_cant": "pairs and triples of keys", "anchors": ["src/jwkest/jwk.py:Key.__eq__"]}
{"id": "C68", "title": "equal keys have equal hashes and hashing does not change equality", "statement": "If k1 == k2 then hash(k1) == hash(k2); computing a hash does not change whether two keys are equal.", "quantifier": "all pairs of keys, any order of hash calls", "why_tests_cant": "hidden mutation only shows in histories", "anchors": ["src/jwkest/jwk.py:Key.__hash__", "src/jwkest/jwk.py:Key.add_kid"]}
{"id": "C69", "title": "key set container behaves like a list", "statement": "After any sequence of append/load operations the set iterates the keys in insertion order; len, kids, by_kid, [type], key_types agree with that list.", "quantifier": "every sequence of operations", "why_tests_cant": "histories", "anchors": ["src/jwkest/jwk.py:KEYS"]}
{"id": "C70", "title": "as_dict partitions the key set by type", "statement": "as_dict maps each (normalised) type to exactly the keys of that type, in order, and every key occurs exactly once.", "quantifier": "every key set", "why_tests_cant": "all lists", "anchors": ["src/jwkest/jwk.py:KEYS.as_dict"]}
{"id": "C71", "title": "symmetric encryption keys have the algorithm's length", "statement": "SYMKey.encryption_key(alg) returns ALG2KEYLEN[alg] bytes determined by key and alg, and raises KeyError for other algorithms.", "quantifier": "every key and algorithm name", "why_tests_cant": "all strings", "anchors": ["src/jwkest/jwk.py:SYMKey.encryption_key"]}
{"id": "C72", "title": "modular inverse", "statement": "inv(a, n) is non-negative and inv(a, n)*a == 1 (mod n) whenever gcd(a, n) == 1; the Euclidean loop terminates.", "quantifier": "all integers a and n > 1", "why_tests_cant": "unbounded integers", "anchors": ["src/jwkest/elliptic.py:inv", "src/jwkest/elliptic.py:euclid"]}
{"id": "C73", "title": "signed binary expansion represents its argument", "statement": "_signed_bin(n) is a most-significant-first list of digits in {-1,0,1} whose value is n, and the loop terminates.", "quantifier": "every n >= 0", "why_tests_cant": "unbounded integers", "anchors": ["src/jwkest/elliptic.py:_signed_bin", "src/jwkest/elliptic.py:_gbd"]}
{"id": "C74", "title": "Jacobian addition and doubling implement the curve group", "statement": "addf and doublef agree with affine addition (add) on the represented points for all operands, including equal, opposite and neutral ones.", "quantifier": "every prime n > 3, nonsingular curve and points on it", "why_tests_cant": "all field elements; exceptional cases", "anchors": ["src/jwkest/elliptic.py:addf", "src/jwkest/elliptic.py:doublef", "src/jwkest/elliptic.py:add"]}
{"id": "C75", "title": "the affine addition is an abelian group", "statement": "Point addition on the curve is associative, commutative, has neutral element None and inverse neg.", "quantifier": "every prime n > 3, nonsingular curve, and points", "why_tests_cant": "triples of points", "anchors": ["src/jwkest/elliptic.py:add", "src/jwkest/elliptic.py:neg"]}
{"id": "C76", "title": "scalar multiplication", "statement": "mulp(P, c) is P added to itself c times.", "quantifier": "every scalar c >= 0 and every point", "why_tests_cant": "unbounded scalars", "anchors": ["src/jwkest/elliptic.py:mulp", "src/jwkest/elliptic.py:mulf"]}
{"id": "C77", "title": "double scalar multiplication", "statement": "muladdp(P, c1, Q, c2) is c1*P + c2*Q.", "quantifier": "every pair of scalars and points", "why_tests_cant": "unbounded scalars; joint digit table", "anchors": ["src/jwkest/elliptic.py:muladdp", "src/jwkest/elliptic.py:muladdf"]}
{"id": "C78", "title": "the built-in NIST curves are sound", "statement": "For P-256, P-384 and P-521 the tabulated p and order N are prime, the curve is nonsingular, the base point is on it and has order exactly N; the names P-256, P-384 and P-521 select the constants of FIPS 186-4 (p, N, a = -3, b, G) and every other name raises ECCException.", "quantifier": "the three curves (number-theoretic facts quantify over all divisors / multiples)", "why_tests_cant": "primality and order are universal statements", "anchors": ["src/jwkest/curves.py:DOMAINS", "src/jwkest/curves.py:get_curve"]}
{"id": "C79", "title": "generated EC key pairs are valid", "statement": "key_pair returns a private scalar in [1, N-1] and a public point on the curve, different from the neutral element, equal to private*G.", "quantifier": "every outcome of the random generator", "why_tests_cant": "2^256 outcomes", "anchors": ["src/jwkest/ecc.py:NISTEllipticCurve.key_pair", "src/jwkest/ecc.py:NISTEllipticCurve.public_key_for"]}
{"id": "C80", "title": "ECDH agreement", "statement": "dh_z(a, public_key_for(b)) == dh_z(b, public_key_for(a)).", "quantifier": "all private keys a, b in [1, N-1] on the three curves", "why_tests_cant": "2^512 pairs", "anchors": ["src/jwkest/ecc.py:NISTEllipticCurve.dh_z"]}
{"id": "C81", "title": "ECDSA signatures verify", "statement": "verify(h, sign(h, d), public_key_for(d)) is True whenever sign returns.", "quantifier": "every hash value, private key in [1,N-1] and nonce", "why_tests_cant": "2^512 combinations", "anchors": ["src/jwkest/ecc.py:NISTEllipticCurve.sign", "src/jwkest/ecc.py:NISTEllipticCurve.verify"]}
{"id": "C82", "title": "ECDSA verification is the textbook check", "statement": "For a public key on the curve, verify returns True exactly when 0<r,s<N and the x coordinate of (e/s)G + (r/s)Q is r mod N, and otherwise returns False.", "quantifier": "every hash, signature bytes and public point", "why_tests_cant": "over all forgeries", "anchors": ["src/jwkest/ecc.py:NISTEllipticCurve.verify"]}
{"id": "C83", "title": "ECDSA hash truncation follows FIPS 186", "statement": "The integer signed is the hash (mod N) when the hash is not longer than N.", "quantifier": "every hash value", "why_tests_cant": "one SHA-256 value in 2^32 exceeds the P-256 order", "anchors": ["src/jwkest/ecc.py:NISTEllipticCurve.sign", "src/jwkest/ecc.py:NISTEllipticCurve.verify"]}
{"id": "C84", "title": "ECDSA signing terminates", "statement": "sign returns for every hash, key and nonce source.", "quantifier": "every input and random source", "why_tests_cant": "non-termination needs s = 0 or r = 0", "anchors": ["src/jwkest/ecc.py:NISTEllipticCurve._sign_loop"]}
{"id": "C85", "title": "ECDSA signature encoding", "statement": "A signature has exactly 2*bytes octets and verify only accepts signatures of that length.", "quantifier": "every signature", "why_tests_cant": "all lengths", "anchors": ["src/jwkest/ecc.py:NISTEllipticCurve.sign", "src/jwkest/ecc.py:NISTEllipticCurve.verify"]}
{"id": "C86", "title": "points off the curve are rejected", "statement": "ECDH and verification reject public keys that are not points on the curve.", "quantifier": "every pair of integers", "why_tests_cant": "negative property", "anchors": ["src/jwkest/ecc.py:NISTEllipticCurve.dh_z", "src/jwkest/jwk.py:ECKey.deserialize"]}
{"id": "C87", "title": "point compression is invertible", "statement": "uncompress(compress(P)) == P.", "quantifier": "every point", "why_tests_cant": "all points", "anchors": ["src/jwkest/ecc.py:NISTEllipticCurve.compress", "src/jwkest/ecc.py:NISTEllipticCurve.uncompress", "src/jwkest/elliptic.py:y_from_x"]}
{"id": "C88", "title": "PBKDF2 reads form one stream", "statement": "The concatenation of any sequence of read(n) results is the prefix of one fixed byte stream determined by passphrase, salt and iteration count.", "quantifier": "every sequence of read sizes", "why_tests_cant": "histories", "anchors": ["src/jwkest/PBKDF2.py:PBKDF2.read"]}
{"id": "C89", "title": "PBKDF2 block function", "statement": "Each block is the XOR of the iterated MACs U_1..U_c as in PKCS#5.", "quantifier": "every iteration count and block index", "why_tests_cant": "unbounded iteration counts", "anchors": ["src/jwkest/PBKDF2.py:PBKDF2.__f"]}
{"id": "C90", "title": "PBKDF2.crypt verifies its own output", "statement": "crypt(word, crypt(word, salt, iterations)) == crypt(word, salt, iterations).", "quantifier": "every word, admissible salt and iteration count", "why_tests_cant": "all salts and counts", "anchors": ["src/jwkest/PBKDF2.py:crypt"]}
{"id": "C91", "title": "PBKDF2 can be constructed on Python 3", "statement": "PBKDF2(passphrase, salt) returns an object for every text or bytes passphrase.", "quantifier": "every passphrase and salt", "why_tests_cant": "all inputs", "anchors": ["src/jwkest/PBKDF2.py:PBKDF2._setup"]}
{"id": "C92", "title": "scalar multiplication on the built-in curves", "statement": "On P-256, P-384 and P-521 mulp(P, c) is exactly c*P and muladdp(P, c, Q, d) is exactly c*P + d*Q, and results stay on the curve.", "quantifier": "every point of the three curves and all scalars >= 0", "why_tests_cant": "all points and scalars", "anchors": ["src/jwkest/elliptic.py:mulp", "src/jwkest/elliptic.py:muladdp"]}
{"id": "C93", "title": "ECDSA malleability", "statement": "Whenever verify accepts (r, s) for a public key d*G it also accepts (r, N - s): an accepted signature does not identify its bytes.", "quantifier": "every hash, key and accepted signature", "why_tests_cant": "all signatures", "anchors": ["src/jwkest/ecc.py:NISTEllipticCurve.verify"]}
{"id": "C94", "title": "the ECDH shared secret", "statement": "For a point Q of the curve dh_z(d, Q) is the x coordinate of d*Q as exactly ceil(bits/8) octets, and raises TypeError exactly when d*Q is the neutral element.", "quantifier": "every scalar d >= 0 and point of the curve", "why_tests_cant": "all points", "anchors": ["src/jwkest/ecc.py:NISTEllipticCurve.dh_z"]}
{"id": "C95", "title": "what PKCS#5 trimming accepts", "statement": "pkcs5trim(x) returns exactly when the last octet n of x is at most 16; it then returns x without its last n octets (the empty string for n = 0). Empty input raises struct.error, a larger last octet Exception.", "quantifier": "every byte string", "why_tests_cant": "all byte strings", "anchors": ["src/jwkest/extra.py:pkcs5trim"]}
{"id": "C96", "title": "AES_GCM.encrypt is NIST GCM", "statement": "The ciphertext and the tag are those of SP 800-38D for the 96-bit IV: counter mode from IV||2 and GHASH(H, A, C) xor E(K, IV||1).", "quantifier": "every object history, iv, plaintext and aad", "why_tests_cant": "unbounded lengths; table-driven code against the definition", "anchors": ["src/jwkest/aes_gcm.py:AES_GCM.encrypt"]}
{"id": "C97", "title": "AES_GCM refuses an immediate IV repetition", "statement": "After a successful encryption under an IV the next call of encrypt with the same IV raises InvalidInputException and leaves the object unchanged.", "quantifier": "every object state and every pair of messages", "why_tests_cant": "all states", "anchors": ["src/jwkest/aes_gcm.py:AES_GCM.encrypt"]}
{"id": "C98", "title": "Concat KDF OtherInfo is injective for a fixed algorithm", "statement": "For one algorithm id, two calls hash the same OtherInfo only if apu, apv and the key length are equal.", "quantifier": "every pair of (apu, apv, length)", "why_tests_cant": "pairs of unbounded byte strings", "anchors": ["src/jwkest/extra.py:ecdh_derive_key"]}
{"id": "C99", "title": "aes_unwrap_key fails only with ValueError", "statement": "For every input of at least 8 octets aes_unwrap_key returns a key or raises ValueError.", "quantifier": "every KEK and wrapped string of at least 8 octets", "why_tests_cant": "adversarial inputs", "anchors": ["src/jwkest/aes_key_wrap.py:aes_unwrap_key"]}
{"id": "C100", "title": "aes_unwrap_key ignores a short tail", "statement": "Appending up to seven octets to a wrapped key does not change the result of unwrapping: the encrypted-key segment is malleable.", "quantifier": "every KEK, wrapped string and tail", "why_tests_cant": "all inputs", "anchors": ["src/jwkest/aes_key_wrap.py:aes_unwrap_key_and_iv"]}
{"id": "C101", "title": "padded key wrap round trip", "statement": "aes_unwrap_key_withpad(kek, aes_wrap_key_withpad(kek, key)) == key.", "quantifier": "every KEK and key", "why_tests_cant": "all key lengths", "anchors": ["src/jwkest/aes_key_wrap.py:aes_wrap_key_withpad", "src/jwkest/aes_key_wrap.py:aes_unwrap_key_withpad"]}
{"id": "C102", "title": "container round trip for non-empty part lists", "statement": "For a non-empty list of byte parts and a non-empty header object, given explicitly or stored on the instance, pack then unpack (from text or bytes) gives the header object (byte-string values decoded to text), the same parts, 1+len(parts) segments, and packing the result again gives the same token.", "quantifier": "every instance, JSON header object and non-empty list of byte parts", "why_tests_cant": "unbounded structures", "anchors": ["src/jwkest/jwt.py:JWT.pack", "src/jwkest/jwt.py:JWT.unpack", "src/jwkest/jwt.py:b2s_conv"]}
{"id": "C103", "title": "payload of non-UTF-8 bytes and totality of payload()", "statement": "With an object header whose cty is absent or text, payload() never raises; for bytes that are not UTF-8 it returns the JSON value json.loads detects in them when JSON is expected, else the raw bytes.", "quantifier": "every header object and payload", "why_tests_cant": "all byte strings", "anchors": ["src/jwkest/jwt.py:JWT.payload"]}
{"id": "C104", "title": "unpack fails only with BadSyntax or ValueError", "statement": "For any text or byte string, JWT.unpack returns or raises BadSyntax or a subclass of ValueError, nothing else.", "quantifier": "every text and byte string", "why_tests_cant": "adversarial inputs; every branch of base64, UTF-8 and JSON decoding", "anchors": ["src/jwkest/jwt.py:JWT.unpack", "src/jwkest/__init__.py:b64d"]}
{"id": "C105", "title": "unpack decodes segment by segment", "statement": "An accepted token has at least two segments; b64part are the dot-separated segments of the token, part the base64url decoding of each, headers the JSON value of the first.", "quantifier": "every accepted token", "why_tests_cant": "all tokens", "anchors": ["src/jwkest/jwt.py:JWT.unpack"]}
{"id": "C106", "title": "dumping and loading a key set", "statement": "load_jwks(dump_jwks()) gives, key by key and in order, an RSA key with the same n, e and annotations (no private numbers), an EC key with the same curve, point and annotations (no private value), a symmetric key with the same secret and annotations.", "quantifier": "every list of RSA, EC and non-empty symmetric keys with text annotations", "why_tests_cant": "unbounded lists and integers; JSON, base64 and key parsing together", "anchors": ["src/jwkest/jwk.py:KEYS.dump_jwks", "src/jwkest/jwk.py:KEYS.load_jwks", "src/jwkest/jwk.py:keyrep"]}
{"id": "C107", "title": "key_from_jwk_dict restores EC private keys", "statement": "key_from_jwk_dict(key.serialize(private=True), private=True) has the numbers x, y, d, the curve and the kid of key.", "quantifier": "every EC key with positive coordinates, private value and a kid", "why_tests_cant": "unbounded integers", "anchors": ["src/jwkest/jwk.py:key_from_jwk_dict", "src/jwkest/jwk.py:ECKey.serialize"]}
{"id": "C108", "title": "the public copy of an RSA key is usable", "statement": "encryption_key() of make_public_copy(key) is the RSA public key (n, e).", "quantifier": "every RSA key", "why_tests_cant": "unbounded integers", "anchors": ["src/jwkest/jwk.py:make_public_copy", "src/jwkest/jwk.py:RSAKey.encryption_key"]}
{"id": "C109", "title": "x5t is checked against the certificate", "statement": "An RSA key given by x5c and x5t without n is constructed only if x5t is the base64url SHA-1 digest of the first certificate, and then has that certificate's n and e.", "quantifier": "every certificate chain and thumbprint", "why_tests_cant": "all byte strings", "anchors": ["src/jwkest/jwk.py:RSAKey.deserialize"]}
{"id": "C110", "title": "keyrep cannot load a certificate JWK with x5t", "statement": "keyrep of {kty: RSA, x5c: [cert], x5t: t} with decodable cert and non-empty t raises AttributeError, even if t is the right thumbprint.", "quantifier": "every certificate and thumbprint", "why_tests_cant": "all strings", "anchors": ["src/jwkest/jwk.py:keyrep", "src/jwkest/jwk.py:RSAKey.deserialize"]}
{"id": "C111", "title": "hashes are stable", "statement": "After hash(key) returned a non-zero h, hashing the key again returns h and changes nothing.", "quantifier": "every key", "why_tests_cant": "hidden state", "anchors": ["src/jwkest/jwk.py:Key.__hash__"]}
{"id": "C112", "title": "a token without a usable algorithm is refused", "statement": "A token whose alg is missing or is not in the algorithm table is refused by verify_compact, unless allow_none is set and alg is null or spells none.", "quantifier": "every instance state, token and key list", "why_tests_cant": "all tokens", "anchors": ["src/jwkest/jws.py:JWS.verify_compact"]}
{"id": "C113", "title": "a token without alg disables the instance", "statement": "After verify_compact was called on a three-part token without alg, no later call on the same instance verifies any token with a key.", "quantifier": "every instance, every sequence of later calls", "why_tests_cant": "hidden state, unbounded call sequences", "anchors": ["src/jwkest/jws.py:JWS.verify_compact"]}
{"id": "C114", "title": "the verifying key has the right kid and alg", "statement": "The key with which verify_compact accepts a token matches the kid in force (instance, else header) when both are set, and its alg, if set, is the token's.", "quantifier": "every accepted token", "why_tests_cant": "all key sets", "anchors": ["src/jwkest/jws.py:JWS.verify_compact"]}
{"id": "C115", "title": "the signing key fits and signs the token text", "statement": "A compact token made by sign_compact with an algorithm other than none ends in the signature, by an offered key whose type, kid, use and alg annotations fit, of the text before the last dot.", "quantifier": "every successful sign_compact", "why_tests_cant": "all keys and headers", "anchors": ["src/jwkest/jws.py:JWS.sign_compact"]}
{"id": "C116", "title": "HMAC signatures are unique as octets", "statement": "Two accepted tokens with the same header and payload segments under one symmetric key have the same signature octets, namely the HMAC of header.payload.", "quantifier": "every pair of accepted tokens", "why_tests_cant": "pairs of adversarial tokens", "anchors": ["src/jwkest/jws.py:HMACSigner.verify"]}
{"id": "C117", "title": "JSON verification checks every entry", "statement": "If verify_json returns, every listed signature was verified over its own header and the shared payload, and all non-null payload views are equal to the result.", "quantifier": "every JSON serialization and key list", "why_tests_cant": "unbounded signature lists", "anchors": ["src/jwkest/jws.py:JWS.verify_json"]}
{"id": "C118", "title": "without keys only the instance's key is trusted", "statement": "Called without keys, verify_compact accepts a signed token only with the key object of the instance; if there is none every call without allow_none raises, also with jku or x5u set.", "quantifier": "every instance and token", "why_tests_cant": "all tokens", "anchors": ["src/jwkest/jws.py:JWS.verify_compact"]}
{"id": "C119", "title": "a lower-case ec JWK lets anyone forge signatures", "statement": "The key keyrep makes of a JWK with kty \"ec\" and no \"key\" member verifies ES256/384/512 tokens that can be computed without any secret, for any header and payload (unless the digest is 0 modulo the order).", "quantifier": "every such JWK, header and payload", "why_tests_cant": "needs elliptic curve reasoning", "anchors": ["src/jwkest/jwk.py:keyrep", "src/jwkest/jws.py:DSASigner.verify"]}
{"id": "C120", "title": "how recognition fails", "statement": "is_jws of a text returns a boolean or raises AttributeError or TypeError; it returns one if the text is a JSON object, or not JSON and its header an object with a hashable alg.", "quantifier": "every text", "why_tests_cant": "adversarial texts", "anchors": ["src/jwkest/jws.py:JWS.is_jws"]}
{"id": "C121", "title": "no text is both JSON and an unpackable token", "statement": "A text that JWT.unpack accepts is not JSON, so recognition always reads it as a compact serialization.", "quantifier": "every text", "why_tests_cant": "all texts", "anchors": ["src/jwkest/jws.py:JWS.is_jws", "src/jwkest/jwt.py:JWT.unpack"]}
{"id": "C122", "title": "JSON signatures verify", "statement": "A JSON or flattened serialization made by sign_json from a text payload, with at least one header pair and no kid outside the protected header, verifies with the same keys and returns the payload.", "quantifier": "every payload, any number of usable header pairs, working keys", "why_tests_cant": "unbounded structures; JSON, base64 and signatures together", "anchors": ["src/jwkest/jws.py:JWS.sign_json", "src/jwkest/jws.py:JWS.verify_json"]}
{"id": "C123", "title": "compact signatures verify", "statement": "A token made by sign_compact is accepted by verify_compact with the same keys and gives the payload, provided the protected header has no kid of its own when a key has none.", "quantifier": "every message, header and list of working keys", "why_tests_cant": "unbounded structures", "anchors": ["src/jwkest/jws.py:JWS.sign_compact", "src/jwkest/jws.py:JWS.verify_compact"]}
{"id": "C124", "title": "which keys work", "statement": "What HMAC, RSA and ECDSA signers sign with a key they verify with it: every octet secret, every RSA key obeying the RSA laws, every EC key with private value d and public point d*G without a coordinate zero.", "quantifier": "every key and message", "why_tests_cant": "elliptic curve group law, unbounded integers", "anchors": ["src/jwkest/jws.py:HMACSigner.sign", "src/jwkest/jws.py:RSASigner.sign", "src/jwkest/jws.py:DSASigner.sign"]}
{"id": "C125", "title": "the form of a GCM tag segment", "statement": "The tag segment of a GCM token is the base64url form of the 128-bit tag of SP 800-38D as an integer in its shortest big-endian form: one to sixteen octets, a leading zero octet only for the tag 0.", "quantifier": "every successful encryption with a wrapped key and a header below 2^61 octets; every call of enc_setup", "why_tests_cant": "one tag in 256 is short", "anchors": ["src/jwkest/jwe.py:JWe.enc_setup"]}
{"id": "C126", "title": "round trip with a wrapped key", "statement": "Whatever JWE.encrypt produced with A128KW, A192KW or A256KW and an octet key, JWE.decrypt returns the UTF-8 of the message if the first suitable key offered is that key.", "quantifier": "every text message, header of JSON values, enc, key list and random choice", "why_tests_cant": "unbounded messages and keys", "anchors": ["src/jwkest/jwe.py:JWE_SYM.encrypt", "src/jwkest/jwe.py:JWE_SYM.decrypt", "src/jwkest/jwe.py:JWE.encrypt", "src/jwkest/jwe.py:JWE.decrypt"]}
{"id": "C127", "title": "round trip with RSA", "statement": "Whatever JWE.encrypt produced with RSA1_5, RSA-OAEP or RSA-OAEP-256, JWE.decrypt returns the octets of the message, given the content key or, when the content key was generated, the private key as first suitable key.", "quantifier": "every message, header of JSON values, enc, key list and random choice", "why_tests_cant": "unbounded messages and keys", "anchors": ["src/jwkest/jwe.py:JWE_RSA.encrypt", "src/jwkest/jwe.py:JWE_RSA.decrypt"]}
{"id": "C128", "title": "round trip with ECDH-ES", "statement": "Whatever JWE.encrypt produced with ECDH-ES, alone or with key wrapping, for an EC key on P-256, P-384 or P-521, JWE.decrypt returns the octets of the message if the first suitable key has the private value of that key.", "quantifier": "every message, key, ephemeral key, apu, apv and random choice", "why_tests_cant": "2^256 keys, unbounded messages", "anchors": ["src/jwkest/jwe.py:JWE_EC.encrypt", "src/jwkest/jwe.py:JWE_EC.decrypt", "src/jwkest/jwe.py:JWE_EC.enc_setup", "src/jwkest/jwe.py:JWE_EC.dec_setup"]}
{"id": "C129", "title": "encryption succeeds", "statement": "JWE.encrypt returns a token for every message of at most 2^36 octets (text when the key is wrapped), enc, algorithm and suitable key with its private part (EC), with JSON header values and a content key and IV that are generated or of the right size.", "quantifier": "every message, key, header and random choice in these bounds", "why_tests_cant": "absence of exceptions on all inputs", "anchors": ["src/jwkest/jwe.py:JWE.encrypt"]}
{"id": "C130", "title": "how many segments are needed", "statement": "A token that JWE.decrypt accepts has at least five segments, exactly five if its key is wrapped.", "quantifier": "every instance, token and key list", "why_tests_cant": "every segment count", "anchors": ["src/jwkest/jwe.py:JWE.decrypt", "src/jwkest/jwe.py:JWE_SYM.decrypt"]}
{"id": "C131", "title": "segments after the fifth are ignored", "statement": "If JWE.decrypt accepts an RSA or ECDH-ES token it returns the same for the token with any further segment appended: nothing authenticates the number of segments.", "quantifier": "every accepted token and octets", "why_tests_cant": "all tokens", "anchors": ["src/jwkest/jwe.py:JWE_RSA.decrypt", "src/jwkest/jwe.py:JWE_EC.decrypt"]}
{"id": "C132", "title": "zip is ignored unless RSA is used", "statement": "For an accepted token with another algorithm than RSA the result is the decrypted content itself, also if the header says zip=DEF.", "quantifier": "every accepted token", "why_tests_cant": "all tokens", "anchors": ["src/jwkest/jwe.py:JWE_SYM.decrypt", "src/jwkest/jwe.py:JWE_EC.decrypt"]}
{"id": "C133", "title": "only the six content encryption algorithms are used", "statement": "Every token JWE.encrypt produces and every token JWE.decrypt accepts has one of the six enc names in its header; enc_setup returns for no other name.", "quantifier": "every token, key list and header", "why_tests_cant": "all names", "anchors": ["src/jwkest/jwe.py:JWe.enc_setup", "src/jwkest/jwe.py:JWe._decrypt"]}
{"id": "C134", "title": "RSA keys with bad padding are passed over", "statement": "If a key decrypts an RSA1_5 token it also does so after keys under which the padding is bad, and before any other keys, unless a random sentinel happens to be the content key.", "quantifier": "every token and key list", "why_tests_cant": "orderings of key lists", "anchors": ["src/jwkest/jwe.py:JWE.decrypt", "src/jwkest/jwe.py:RSAEncrypter.decrypt"]}
{"id": "C135", "title": "the first suitable key decides", "statement": "For wrapped keys and ECDH-ES, decryption with a list of keys returns exactly what it returns with the first suitable key alone.", "quantifier": "every token and key list", "why_tests_cant": "orderings of key lists", "anchors": ["src/jwkest/jwe.py:JWE.decrypt"]}
{"id": "C136", "title": "ECDH-ES needs the recipient's private key to encrypt", "statement": "JWE.encrypt with ECDH-ES never returns for an EC key without private value.", "quantifier": "every such key and message", "why_tests_cant": "all keys", "anchors": ["src/jwkest/jwe.py:JWE.encrypt", "src/jwkest/jwk.py:ECKey.get_key"]}
{"id": "C137", "title": "ECDH-ES tokens need apu and apv", "statement": "An accepted token whose alg begins with ECDH-ES has text members apu and apv in its header that are base64url; RFC 7518 makes both optional.", "quantifier": "every accepted token", "why_tests_cant": "all tokens", "anchors": ["src/jwkest/jwe.py:JWE_EC.dec_setup", "src/jwkest/extra.py:ecdh_derive_key"]}
{"id": "C138", "title": "an epk must be a key object", "statement": "JWE.encrypt with ECDH-ES never returns if epk was given as anything else than a key object.", "quantifier": "every other value", "why_tests_cant": "all values", "anchors": ["src/jwkest/jwe.py:JWE_EC.enc_setup"]}
{"id": "C139", "title": "wrapped keys encrypt text only", "statement": "If JWE.encrypt with a wrapped key returns, the message is a text.", "quantifier": "every message", "why_tests_cant": "all values", "anchors": ["src/jwkest/jwe.py:JWE_SYM.encrypt"]}
{"id": "C140", "title": "ECDH-ES with key wrapping reuses a content key", "statement": "If the instance holds a content key, as RSA encryption and decryption leave it, enc_setup of ECDH-ES with key wrapping uses it again.", "quantifier": "every instance and key", "why_tests_cant": "hidden state", "anchors": ["src/jwkest/jwe.py:JWE_EC.enc_setup", "src/jwkest/jwe.py:JWE.encrypt"]}
{"id": "C141", "title": "ECDH-ES ignores the caller's content key and IV", "statement": "JWE.encrypt with ECDH-ES gives the same result for all arguments cek and iv.", "quantifier": "every instance, cek and iv", "why_tests_cant": "all values", "anchors": ["src/jwkest/jwe.py:JWE.encrypt"]}
{"id": "C142", "title": "recognition of encrypted tokens", "statement": "is_jwe is true exactly if typ is a text spelling jwe in any case, or typ is absent or a string and alg and enc are supported names.", "quantifier": "every header object", "why_tests_cant": "all headers", "anchors": ["src/jwkest/jwe.py:JWEnc.is_jwe"]}
{"id": "C143", "title": "RSAEncrypter round trip", "statement": "RSAEncrypter.decrypt undoes encrypt with the same padding and with_digest, for PKCS#1 v1.5 without digest unless the sentinel is the message.", "quantifier": "every message, key and randomness", "why_tests_cant": "all messages", "anchors": ["src/jwkest/jwe.py:RSAEncrypter.encrypt", "src/jwkest/jwe.py:RSAEncrypter.decrypt"]}
{"id": "C144", "title": "a given content key is not sent", "statement": "If the caller gives a content key, an RSA token has an empty second segment: the recipient cannot decrypt it with the RSA key.", "quantifier": "every content key and message", "why_tests_cant": "all values", "anchors": ["src/jwkest/jwe.py:JWE_RSA.encrypt"]}
{"id": "C145", "title": "bad PKCS#1 v1.5 padding is reported as DecryptionFailed", "statement": "RSAEncrypter.decrypt without digest raises DecryptionFailed whenever the padding is bad.", "quantifier": "every key, ciphertext and sentinel", "why_tests_cant": "all ciphertexts", "anchors": ["src/jwkest/jwe.py:RSAEncrypter.decrypt"]}
{"id": "C146", "title": "format of crypt results", "statement": "What crypt returns is $p5k2$, the count in lower-case hexadecimal (nothing for 400), $, a salt of admissible characters, $ and 32 base64 characters; with one iteration it returns for every ASCII word and admissible salt.", "quantifier": "every word, salt and count", "why_tests_cant": "all salts and counts", "anchors": ["src/jwkest/PBKDF2.py:crypt", "src/jwkest/PBKDF2.py:b64encode"]}
{"id": "C147", "title": "crypt never returns on Python 3", "statement": "On Python 3 crypt raises for all arguments: the encoded salt is no longer a str.", "quantifier": "every word, salt and count", "why_tests_cant": "all arguments", "anchors": ["src/jwkest/PBKDF2.py:crypt"]}
{"id": "C148", "title": "generated salts", "statement": "_makesalt returns eight admissible salt characters on Python 2, and crypt without salt is crypt with such a salt.", "quantifier": "every random choice", "why_tests_cant": "all random choices", "anchors": ["src/jwkest/PBKDF2.py:_makesalt", "src/jwkest/PBKDF2.py:crypt"]}
{"id": "C149", "title": "PBKDF2.read at the end of the stream", "statement": "A read returns exactly n octets, or raises OverflowError and changes nothing if that would pass 20*(2^32-1) octets; no other exception occurs; a closed object raises ValueError.", "quantifier": "every state reachable by reads and every n", "why_tests_cant": "histories of 2^36 octets", "anchors": ["src/jwkest/PBKDF2.py:PBKDF2.read", "src/jwkest/PBKDF2.py:PBKDF2.close"]}
{"id": "C150", "title": "JWT pack/unpack round trip for parts of every kind", "statement": "A token packed from a header object and a non-empty list of byte strings, texts, null, lists and dictionaries unpacks to that header and to segments from which every part is found again: bytes as they are, texts by UTF-8, the others by JSON. A list with a number is never packed.", "quantifier": "every header and list of parts", "why_tests_cant": "all values and nestings", "anchors": ["src/jwkest/jwt.py:JWT.pack", "src/jwkest/jwt.py:JWT.unpack", "src/jwkest/jwt.py:b64encode_item"]}
{"id": "C151", "title": "the JWT constructor", "statement": "JWT(**headers) keeps the headers, except that a missing or false alg is recorded as null; its single segment decodes to the JSON text of these headers, and pack without parts returns that segment. It succeeds for every header object of JSON values.", "quantifier": "every header object", "why_tests_cant": "all header objects", "anchors": ["src/jwkest/jwt.py:JWT.__init__", "src/jwkest/jwt.py:JWT.pack"]}
{"id": "C152", "title": "AES key wrap is that of RFC 3394", "statement": "aes_wrap_key of a key of n > 0 blocks of 64 bits is the value defined in RFC 3394 section 2.2.1, and aes_unwrap_key returns a key exactly for that value.", "quantifier": "every key encryption key and every key of whole 64-bit blocks", "why_tests_cant": "one test vector cannot show it for all keys", "anchors": ["src/jwkest/aes_key_wrap.py:aes_wrap_key", "src/jwkest/aes_key_wrap.py:aes_unwrap_key"]}
{"id": "C153", "title": "left_hash for every signature algorithm", "statement": "left_hash(msg, alg) is the base64url text of the left half of the SHA-2 digest of msg, with the hash size named by alg, for every signature algorithm.", "quantifier": "every text or byte string and algorithm name", "why_tests_cant": "all messages; a missing branch returns None silently", "anchors": ["src/jwkest/jws.py:left_hash"]}
{"id": "C154", "title": "mpint and mp2bin", "statement": "mpint prefixes an integer with its length, and mp2bin(mpint(b)) = b.", "quantifier": "every byte string shorter than 2^32 - 1 octets", "why_tests_cant": "all byte strings", "anchors": ["src/jwkest/jws.py:mpint", "src/jwkest/jws.py:mp2bin"]}
{"id": "C155", "title": "comparison of raw keys", "statement": "rsa_eq compares modulus and exponent; key_eq is true for equal texts and for equal RSA keys and false for everything else.", "quantifier": "every pair of raw keys", "why_tests_cant": "pairs of keys", "anchors": ["src/jwkest/jwk.py:rsa_eq", "src/jwkest/jwk.py:key_eq"]}
{"id": "C156", "title": "intarr2str", "statement": "intarr2str(arr) is the text with exactly these code points, and raises exactly if one of the numbers is no code point.", "quantifier": "every list of integers", "why_tests_cant": "all lists", "anchors": ["src/jwkest/jwk.py:intarr2str"]}
{"id": "C157", "title": "key objects from raw keys", "statement": "keyitems2keyreps makes one key object per raw key, in order: of the class named by the type in any case, with the numbers or the secret of the raw key, and a plain Key for any other type.", "quantifier": "every list of types with raw keys", "why_tests_cant": "unbounded lists", "anchors": ["src/jwkest/jwk.py:keyitems2keyreps"]}
{"id": "C158", "title": "loading a key into an RSAKey object", "statement": "After load_key(key) an RSAKey has exactly the numbers of key.", "quantifier": "every RSAKey object and RSA key", "why_tests_cant": "state left by an earlier key", "anchors": ["src/jwkest/jwk.py:RSAKey.load_key"]}
{"id": "C159", "title": "certificate in base64 text", "statement": "der_cert2rsa returns the key of a certificate given as base64 text, with any characters outside the alphabet in between.", "quantifier": "every certificate and every way of breaking its text", "why_tests_cant": "all lengths: the padding matters", "anchors": ["src/jwkest/jwk.py:der_cert2rsa"]}
{"id": "C160", "title": "certificate in a PEM file", "statement": "pem_cert2rsa returns the key of the certificate between the first and the last line of the file, for all line lengths, line ends and empty lines, if RSA.importKey accepts the file.", "quantifier": "every certificate, division into lines and pair of framing lines", "why_tests_cant": "all line lengths", "anchors": ["src/jwkest/jwk.py:pem_cert2rsa"]}
{"id": "C161", "title": "load_x509_cert never raises", "statement": "load_x509_cert returns an empty list exactly if the certificate cannot be fetched or imported; otherwise it returns the one key imported from or remembered for exactly the fetched text, and remembers it.", "quantifier": "every URL, server and dictionary of seen keys", "why_tests_cant": "all server answers", "anchors": ["src/jwkest/jwk.py:load_x509_cert"]}
{"id": "C162", "title": "_hash_input", "statement": "_hash_input concatenates round, key, length, algorithm, the party values with their lengths, and label.", "quantifier": "every argument", "why_tests_cant": "all values", "anchors": ["src/jwkest/jwe.py:_hash_input", "src/jwkest/jwe.py:party_value", "src/jwkest/jwe.py:int2bigendian"]}
{"id": "C163", "title": "keysize", "statement": "keysize is the decimal number after HS or CS, the number of the three digits after A, and 0 for a name with another beginning.", "quantifier": "every text", "why_tests_cant": "all texts", "anchors": ["src/jwkest/jwe.py:keysize"]}
{"id": "C164", "title": "mapping methods of JWx", "statement": "What is stored under a name is found under this name as item, attribute and member, and nothing else changes; a missing name is a KeyError or AttributeError; dump_header shows exactly the stored parameters named in args.", "quantifier": "every instance, name and value", "why_tests_cant": "all states", "anchors": ["src/jwkest/jws.py:JWx.__getitem__", "src/jwkest/jws.py:JWx.__setitem__", "src/jwkest/jws.py:JWx.__getattr__", "src/jwkest/jws.py:JWx.__contains__", "src/jwkest/jws.py:JWx.dump_header"]}
{"id": "C165", "title": "JWx.headers: precedence", "statement": "headers(extra) has exactly the parameters of extra and the true ones of the instance that are named in args; extra wins, except for jwk, which is serialized without private parts; a kid of the instance that is no text raises HeaderError.", "quantifier": "every instance and extra header", "why_tests_cant": "all combinations", "anchors": ["src/jwkest/jws.py:JWx.headers"]}
{"id": "C166", "title": "JWx._decode", "statement": "_decode(b64e(m)) is m, and the JSON value of m exactly if cty is JWT.", "quantifier": "every instance and byte string", "why_tests_cant": "all byte strings", "anchors": ["src/jwkest/jws.py:JWx._decode"]}
{"id": "C167", "title": "JWSig.valid", "statement": "An unpacked token is valid as a JWS exactly if it contains two dots.", "quantifier": "every token that unpacks", "why_tests_cant": "all tokens", "anchors": ["src/jwkest/jws.py:JWSig.valid", "src/jwkest/jws.py:JWSig.__len__"]}
{"id": "C168", "title": "the signed binary form is sparse and least", "statement": "Of two neighbouring digits of _signed_bin(n) one is zero, and no other list of digits -1, 0, 1 with the value n has fewer non-zero digits.", "quantifier": "every n >= 0 and every other signed binary form of it", "why_tests_cant": "all pairs of forms", "anchors": ["src/jwkest/elliptic.py:_signed_bin", "src/jwkest/elliptic.py:_gbd"]}
{"id": "C169", "title": "assign groups keys by type", "statement": "assign returns one entry per type that occurs, holding the keys of this type in their order.", "quantifier": "every list of pairs of a type and a key", "why_tests_cant": "all lists", "anchors": ["script/jwkutil.py:assign", "script/jwenc.py:assign", "script/jwdecrypt.py:assign"]}
{"id": "C170", "title": "signing succeeds", "statement": "sign_compact returns a token whenever the first suitable key can sign and header and payload are encodable; the token is exactly the header, the payload and the signature over the first two, each in base64url.", "quantifier": "every instance, key list, protected header and signer that signs every input", "why_tests_cant": "all keys and payloads", "anchors": ["src/jwkest/jws.py:JWS.sign_compact", "src/jwkest/jws.py:JWx.alg2keytype", "src/jwkest/jws.py:JWx.pick_keys"]}
{"id": "C171", "title": "jwkutil: sign, then verify", "statement": "jwkutil -s -k secret -a HS256/HS384/HS512 [-t typ] msg prints an ASCII token; jwkutil -v -k secret with this token prints the JSON value of msg, or msg itself if it is not JSON.", "quantifier": "every non-empty secret, message other than -, and type that UTF-8 can encode", "why_tests_cant": "all secrets and messages", "anchors": ["script/jwkutil.py:sign", "script/jwkutil.py:verify"]}
{"id": "C172", "title": "jwkutil -s without -a signs nothing", "statement": "Whatever jwkutil -s prints without an algorithm, and whatever the keys, it is a token of two segments followed by an empty signature.", "quantifier": "every combination of the other options, files and keys", "why_tests_cant": "all options", "anchors": ["script/jwkutil.py:sign", "src/jwkest/jws.py:JWS.sign_compact"]}
{"id": "C173", "title": "jwkutil -d prints nothing", "statement": "jwkutil -d (without -s and -e) never prints anything: the result of decrypt is taken apart as a pair.", "quantifier": "every combination of the other options, files and keys", "why_tests_cant": "negative property", "anchors": ["script/jwkutil.py:decrypt"]}
{"id": "C174", "title": "gen_symkey", "statement": "gen_symkey prints a JWK set that loads to one key of type oct with the kid given, whose secret is the requested number of drawn capital letters and digits.", "quantifier": "every positive length, kid and sequence of random indices", "why_tests_cant": "all random draws", "anchors": ["script/gen_symkey.py:rndstr", "script/gen_symkey.py:main"]}
{"id": "C175", "title": "gen_symkey, jwkutil and jwdecrypt together", "statement": "With a key set printed by gen_symkey: what jwkutil -s prints, jwkutil -v verifies and reports; what jwkutil -s -e prints, jwdecrypt decrypts to the token of jwkutil -s.", "quantifier": "every such key set, HMAC algorithm, key wrap algorithm, content encryption and message", "why_tests_cant": "all keys and messages", "anchors": ["script/jwkutil.py:sign", "script/jwkutil.py:verify", "script/jwkutil.py:encrypt", "script/jwdecrypt.py:decrypt", "script/gen_symkey.py:main"]}
{"id": "C176", "title": "jwenc, then jwdecrypt", "statement": "With a key set printed by gen_symkey: what jwenc -J prints, jwdecrypt -J decrypts to the octets of the message.", "quantifier": "every such key set, key wrap algorithm, content encryption and message", "why_tests_cant": "all keys and messages", "anchors": ["script/jwenc.py:encrypt", "script/jwdecrypt.py:decrypt"]}
{"id": "C177", "title": "peek tells JWS from JWE", "statement": "A token that verify accepts (alg none not allowed) is shown as jws with header and payload octets, and a token that decrypt accepts with keys of the right class is shown as jwe, if typ is absent or a text other than JWE. Any token with typ JWE in some letter case is shown as jwe, with a typ that is no text there is an AttributeError.", "quantifier": "every token, key list and header", "why_tests_cant": "all tokens", "anchors": ["script/peek.py", "src/jwkest/jwe.py:factory", "src/jwkest/jws.py:factory"]}
{"id": "C178", "title": "jwk_create never stores a key pair", "statement": "create_and_store_rsa_key_pair raises TypeError for every key, leaves an empty file name.key, and touches no other file.", "quantifier": "every file name, key and content of the directory", "why_tests_cant": "negative property", "anchors": ["script/jwk_create.py:create_and_store_rsa_key_pair"]}
{"id": "C179", "title": "jwenc -X never encrypts", "statement": "jwenc with a certificate URL (and without -j and -J) prints no token, whatever the certificate and the other options.", "quantifier": "every certificate and option", "why_tests_cant": "negative property", "anchors": ["script/jwenc.py", "src/jwkest/jwk.py:load_x509_cert"]}
{"id": "C180", "title": "the kind of key an algorithm asks for", "statement": "alg2keytype maps the empty text and the word none in any letter case to none, texts that begin with RS or PS to RSA, with HS or A to oct, with ES or ECDH-ES to EC, and every other text to None; a false value that is no text gives none, any other value raises.", "quantifier": "every algorithm value", "why_tests_cant": "all texts", "anchors": ["src/jwkest/jws.py:alg2keytype"]}
{"id": "C181", "title": "recognition of every text", "statement": "is_jws and factory recognise a text exactly if it is a JSON object with payload and signatures or signature, or unpacks to a header with an alg of the table or null; whatever sign_json returns, in general or flattened form, is recognised.", "quantifier": "every text; every instance, key list and header list fit for signing", "why_tests_cant": "all texts", "anchors": ["src/jwkest/jws.py:JWS.is_jws", "src/jwkest/jws.py:JWS._is_json_serialized_jws", "src/jwkest/jws.py:factory", "src/jwkest/jws.py:JWS.sign_json"]}
{"id": "C182", "title": "the key of ECDH-ES as a formula", "statement": "The content key (ECDH-ES) or wrapping key (ECDH-ES+AxxxKW) is the first n bits of SHA-256(1, z, info), SHA-256(2, z, info), where n is 128, 192, 256, 256, 384 or 512 by enc, or 128, 192, 256 by alg, z is the shared coordinate, and info is the name, apu and apv with their lengths, and n, each number in four octets; with the receiver as with the sender.", "quantifier": "every token or instance, key and random draw for which the setup succeeds", "why_tests_cant": "all keys and parties", "anchors": ["src/jwkest/jwe.py:JWE_EC.enc_setup", "src/jwkest/jwe.py:JWE_EC.dec_setup", "src/jwkest/extra.py:ecdh_derive_key", "src/jwkest/extra.py:concat_sha256"]}
{"id": "C183", "title": "the AlgorithmID of ECDH-ES with key wrapping", "statement": "The wrapping key of ECDH-ES+A128KW, +A192KW and +A256KW is derived from the value of alg as AlgorithmID (RFC 7518, section 4.6.2).", "quantifier": "every pair of parties", "why_tests_cant": "all parties", "anchors": ["src/jwkest/jwe.py:JWE_EC.enc_setup", "src/jwkest/jwe.py:JWE_EC.dec_setup"]}
{"id": "C184", "title": "the scheme of each RSA algorithm", "statement": "JWE_RSA encrypts and decrypts the content key with PKCS#1 v1.5 for RSA1_5, OAEP with SHA-1 for RSA-OAEP and OAEP with SHA-256 for RSA-OAEP-256, and the encrypted key is the second segment of the token.", "quantifier": "every token, key and random draw", "why_tests_cant": "all keys", "anchors": ["src/jwkest/jwe.py:JWE_RSA.encrypt", "src/jwkest/jwe.py:JWE_RSA.decrypt"]}
{"id": "C185", "title": "JWE_SYM used by itself", "statement": "JWE_SYM.decrypt returns a message exactly if a key or content key is given, the token has five segments, the wrapped key (if needed) unwraps and the content decrypts; the message is decompressed exactly if the instance itself has zip DEF, whatever the header says.", "quantifier": "every instance, token, key and content key", "why_tests_cant": "all tokens", "anchors": ["src/jwkest/jwe.py:JWE_SYM.decrypt"]}
{"id": "C186", "title": "messages in files and on the standard input", "statement": "A message read from a file (-f of jwenc and jwdecrypt, with the ends of line characters around it removed) or, for jwkutil, from the file named by the option or from the standard input (-, with white space around it removed) gives the same result as the same message on the command line.", "quantifier": "every option, file and message", "why_tests_cant": "all files", "anchors": ["script/jwkutil.py:sign", "script/jwkutil.py:verify", "script/jwkutil.py:encrypt", "script/jwenc.py", "script/jwdecrypt.py"]}
{"id": "C187", "title": "a token piped into jwkutil is refused", "statement": "The output of one run of jwkutil, with the end of line print adds, given to jwkutil -v or -d on its standard input, is never verified and never decrypted: the line end is not removed.", "quantifier": "every token of characters outside the line end, key and option", "why_tests_cant": "negative property", "anchors": ["script/jwkutil.py:verify", "script/jwkutil.py:decrypt"]}
{"id": "C188", "title": "the text of a key shows its private numbers", "statement": "str() of an RSA key contains every number that is set, d, p and q included, str() of an EC key its d, and str() of a symmetric key its secret, each as base64url text after its name in quotes; the text of a key set depends on public parts only; keys with different dictionaries have different texts.", "quantifier": "every well-formed key; every two lists of RSA and EC keys with the same public parts", "why_tests_cant": "all keys", "anchors": ["src/jwkest/jwk.py:Key.__str__", "src/jwkest/jwk.py:KEYS.__str__", "src/jwkest/jwk.py:KEYS.__repr__", "src/jwkest/jwk.py:Key.to_dict"]}
{"id": "C189", "title": "keys of an unknown type have no text", "statement": "For a key that keyrep makes of a dictionary with an unknown kty, str() and keys() raise AttributeError.", "quantifier": "every such dictionary", "why_tests_cant": "all dictionaries", "anchors": ["src/jwkest/jwk.py:Key.__str__", "src/jwkest/jwk.py:Key.keys", "src/jwkest/jwk.py:keyrep"]}
{"id": "C190", "title": "the names of an RSA key", "statement": "keys() of an RSA key lists kty, those of use, kid and alg that are set, those of the nine numbers that are set, and the unknown members, and nothing else.", "quantifier": "every well-formed RSA key", "why_tests_cant": "all keys", "anchors": ["src/jwkest/jwk.py:Key.keys", "src/jwkest/jwk.py:RSAKey.to_dict", "src/jwkest/jwk.py:Key.common"]}
{"id": "C191", "title": "dicthash", "statement": "Equal dictionaries have equal dicthash, and different ones have different ones as far as the hash of texts has no collisions.", "quantifier": "every two dictionaries", "why_tests_cant": "all orders of members", "anchors": ["src/jwkest/jwk.py:dicthash"]}
{"id": "C192", "title": "the stream filter", "statement": "aes_enc and aes_dec give the whole text to the cipher once and append what final returns; for an empty text only final is called.", "quantifier": "every cipher and text", "why_tests_cant": "all ciphers", "anchors": ["src/jwkest/jwe.py:cipher_filter", "src/jwkest/jwe.py:aes_enc", "src/jwkest/jwe.py:aes_dec"]}
{"id": "C193", "title": "JWE_SYM with a key object or octets", "statement": "What JWE_SYM encrypts with a symmetric key object, its secret being octets or text, or with octets, JWE_SYM decrypts with any of the three that has the same octets; with a list of numbers as the key it does neither.", "quantifier": "every key of 16, 24 or 32 octets, message, header and random draw", "why_tests_cant": "all keys and messages", "anchors": ["src/jwkest/jwe.py:JWE_SYM.encrypt", "src/jwkest/jwe.py:JWE_SYM.decrypt"]}
{"id": "C194", "title": "JWE_SYM and JWE agree", "statement": "What JWE_SYM encrypts with a symmetric key object, JWE decrypts with the same object, and the other way round.", "quantifier": "every symmetric key object", "why_tests_cant": "all keys", "anchors": ["src/jwkest/jwe.py:JWE_SYM.encrypt", "src/jwkest/jwe.py:JWE.decrypt", "src/jwkest/jwk.py:SYMKey.encryption_key"]}
{"id": "C195", "title": "jwdecrypt with a certificate prints nothing", "statement": "jwdecrypt with -X or -x (and without -j and -J) never prints a message; line ends around the token in the file do not change what it does.", "quantifier": "every certificate, file and message", "why_tests_cant": "negative property", "anchors": ["script/jwdecrypt.py", "src/jwkest/jwk.py:load_x509_cert", "src/jwkest/jwk.py:rsa_load"]}
{"id": "C196", "title": "what keyrep makes of an object", "statement": "The class follows kty; kty, alg, use and kid given as text are kept, absent ones are empty; a member whose name keys of this type do not know becomes a member of the key with its value (text as UTF-8), and a name they know never does.", "quantifier": "every dictionary keyrep accepts", "why_tests_cant": "all member names", "anchors": ["src/jwkest/jwk.py:keyrep", "src/jwkest/jwk.py:Key.__init__", "src/jwkest/jwk.py:RSAKey.__init__", "src/jwkest/jwk.py:ECKey.__init__", "src/jwkest/jwk.py:SYMKey.__init__"]}
{"id": "C197", "title": "unknown members are printed again", "statement": "to_dict returns the members of the private form and, over them, the unknown members: every unknown member of an object given to keyrep is in to_dict with its value. (Known members that are not printed, such as x5u, are lost.)", "quantifier": "every key and dictionary", "why_tests_cant": "all member names", "anchors": ["src/jwkest/jwk.py:Key.to_dict", "src/jwkest/jwk.py:keyrep"]}
{"id": "C198", "title": "RSA keys made of a key object", "statement": "RSAKey(key=object) takes n and e of the object, d if it has one, p and q if it is private, and leaves the other numbers as given; if n and e are given as well, all the given numbers are kept and the object stays.", "quantifier": "every key object and argument", "why_tests_cant": "all key objects", "anchors": ["src/jwkest/jwk.py:RSAKey.__init__", "src/jwkest/jwk.py:RSAKey._split"]}
{"id": "C199", "title": "EC keys made of a curve or numbers", "statement": "ECKey(key=curve) draws a key pair of this curve: d in 1..N-1 and the point d*G in the order x, y; a curve given as curve is kept and nothing is computed; integers given with the name of a curve are kept.", "quantifier": "every curve of the library, draw and argument", "why_tests_cant": "all draws", "anchors": ["src/jwkest/jwk.py:ECKey.__init__", "src/jwkest/ecc.py:NISTEllipticCurve.key_pair"]}
{"id": "C200", "title": "symmetric keys made of a secret", "statement": "SYMKey(key=secret), octets or text, has the octets (the UTF-8 of the text) as key for signing and verifying, whatever k is.", "quantifier": "every secret", "why_tests_cant": "all secrets", "anchors": ["src/jwkest/jwk.py:SYMKey.__init__", "src/jwkest/jwk.py:Key.get_key"]}
{"id": "C201", "title": "wrapping raw keys", "statement": "jwk_wrap gives an RSA key object a key with its numbers, text a symmetric key with its UTF-8, a curve a fresh key pair on it, with use and kid as given, no alg and no unknown members.", "quantifier": "every key object with positive n and e, text, curve and draw", "why_tests_cant": "all keys", "anchors": ["src/jwkest/jwk.py:jwk_wrap"]}
{"id": "C202", "title": "what loading a key set leaves behind", "statement": "Loading adds the keys of the set after the present ones; text that is no JSON, no object or without keys changes nothing and raises; a key that cannot be read raises its error, and the keys before it have been added; a failed request changes nothing.", "quantifier": "every text, list of keys and server", "why_tests_cant": "all texts", "anchors": ["src/jwkest/jwk.py:KEYS.load_dict", "src/jwkest/jwk.py:KEYS.load_jwks", "src/jwkest/jwk.py:KEYS.load_from_url"]}
{"id": "C203", "title": "the encryption key of an RSA key", "statement": "encryption_key of an RSA key is its key object; of a key with only n and e the object made of n and e, which the key keeps.", "quantifier": "every RSA key", "why_tests_cant": "all keys", "anchors": ["src/jwkest/jwk.py:RSAKey.encryption_key", "src/jwkest/jwk.py:RSAKey.deserialize"]}
{"id": "C204", "title": "verify of keys", "statement": "verify is true, and changes nothing, if every number is unset, an integer or a list of base64url octets, and kid is text; it raises HeaderError if kid is set and no text; for numbers in base64url text it is false, or raises UnicodeDecodeError: never true.", "quantifier": "every key", "why_tests_cant": "all keys", "anchors": ["src/jwkest/jwk.py:Key.verify"]}
{"id": "C205", "title": "the constructor of JWS keeps its parameters", "statement": "JWS(msg, ...) keeps jku, x5u, x5t, kid, typ, cty and the list x5c as given, alg is none if absent; without arguments there are no parameters; headers of a token with a member self cannot be read, a member msg becomes the message.", "quantifier": "every message and argument", "why_tests_cant": "all arguments", "anchors": ["src/jwkest/jws.py:JWx.__init__", "src/jwkest/jws.py:JWS.__init__", "src/jwkest/jws.py:JWS.verify_compact"]}
{"id": "C206", "title": "crit is stored as x5c", "statement": "The constructor of JWS never keeps a parameter crit: its value replaces the certificate chain x5c.", "quantifier": "every message and argument", "why_tests_cant": "negative property", "anchors": ["src/jwkest/jws.py:JWx.__init__"]}
{"id": "C207", "title": "the argument jwk of JWS", "statement": "A key object given as jwk is kept; a dictionary or JSON text is read by keyrep and its errors are raised; JSON that is no object raises AttributeError.", "quantifier": "every message, argument, dictionary and text", "why_tests_cant": "all texts", "anchors": ["src/jwkest/jws.py:JWx.__init__"]}
{"id": "C208", "title": "ECDSA with a key that is no point", "statement": "Verifying an ECDSA signature with a key that is no point raises BadSignature if a half of the signature is out of range, and otherwise the error of taking the key as a point.", "quantifier": "every message, signature and material", "why_tests_cant": "all signatures", "anchors": ["src/jwkest/jws.py:DSASigner.verify"]}
{"id": "C209", "title": "EC keys with a coordinate zero", "statement": "get_key gives the point and the private value of every key whose numbers are not zero, and ValueError if there is no private value. The point of P-256 with x = 0 is a valid key that get_key refuses and serialize cannot print.", "quantifier": "every EC key", "why_tests_cant": "a single point in 2^256", "anchors": ["src/jwkest/jwk.py:ECKey.get_key", "src/jwkest/jwk.py:ECKey.serialize", "src/jwkest/jwk.py:ECKey.encryption_key"]}
{"id": "C210", "title": "the value of a signature", "statement": "A token signed with an algorithm other than none ends with the HMAC, the RSA signature or the ECDSA pair (r, s) of exactly the text before it, by the table of RFC 7518 section 3: r is the x coordinate of n*G modulo N for the drawn nonce n, s*n = h + r*d modulo N, and both have the length of the field.", "quantifier": "every message, key, header, nonce and signature scheme", "why_tests_cant": "all algorithms and keys; a wrong formula used by signer and verifier alike passes every round-trip test", "anchors": ["src/jwkest/jws.py:JWS.sign_compact", "src/jwkest/jws.py:SIGNER_ALGS", "src/jwkest/jws.py:DSASigner.sign", "src/jwkest/ecc.py:EllipticCurve.sign"]}
{"id": "C211", "title": "what verify_compact can raise", "statement": "With complete keys, verifying text raises BadSyntax, a ValueError, WrongNumberOfParts, SignerAlgError, NoSuitableSigningKeys or BadSignature; TypeError only if the header is no object or for ECDSA, AttributeError only for alg or cty that is no text, KeyError only for a missing or unknown alg.", "quantifier": "every token and list of complete keys", "why_tests_cant": "all tokens", "anchors": ["src/jwkest/jws.py:JWS.verify_compact", "src/jwkest/jws.py:JWS._verify_alg"]}
{"id": "C212", "title": "further keys never hurt", "statement": "Keys added behind those that verify or decrypt a token change nothing. Complete keys put in front never make an HMAC or RSA token fail, and the message stays the same.", "quantifier": "every token and list of keys", "why_tests_cant": "all lists of keys", "anchors": ["src/jwkest/jws.py:JWS.verify_compact", "src/jwkest/jwe.py:JWE.decrypt"]}
{"id": "C213", "title": "points that are not on the curve", "statement": "The shared secret of a private value and a point that is not on the curve is that of the curve with the same a through the point, if this curve is nonsingular and has no point of order two: the constant b is never used.", "quantifier": "every curve, private value and point", "why_tests_cant": "all points", "anchors": ["src/jwkest/ecc.py:EllipticCurve.dh_z", "src/jwkest/elliptic.py:mulp", "src/jwkest/elliptic.py:doublef", "src/jwkest/elliptic.py:addf"]}
{"id": "C214", "title": "ephemeral keys reveal nothing about the private value", "statement": "Whether an ECDH-ES token is opened does not depend on the private value if its ephemeral key is not on the curve: such keys are refused.", "quantifier": "every token and private key", "why_tests_cant": "one token in 2^512, all private values", "anchors": ["src/jwkest/jwe.py:JWE_EC.dec_setup", "src/jwkest/ecc.py:EllipticCurve.dh_z", "src/jwkest/extra.py:ecdh_derive_key"]}
{"id": "C215", "title": "AES-CBC-HMAC block by block", "statement": "The ciphertext is the CBC chain of AES under the second half of the key over the text padded with 1 to 16 octets of their number; the tag is the first half of the HMAC under the first half of the key over aad, iv, ciphertext and the bit length of aad. Decryption takes the same chain back and drops as many octets as the last one says.", "quantifier": "every key, iv, aad and text", "why_tests_cant": "swapping the halves in both directions passes every round-trip test", "anchors": ["src/jwkest/extra.py:aes_cbc_hmac_encrypt", "src/jwkest/extra.py:aes_cbc_hmac_decrypt", "src/jwkest/extra.py:pkcs5pad"]}
{"id": "C216", "title": "certificates are read where their key is", "statement": "der2rsa imports the SubjectPublicKeyInfo of every X.509 certificate, and returns a key only for a DER sequence that begins with a DER sequence of at least seven members.", "quantifier": "every certificate, every text", "why_tests_cant": "all certificates", "anchors": ["src/jwkest/jwk.py:der2rsa"]}
{"id": "C217", "title": "only the key of the first certificate matters", "statement": "An RSA key given by x5c alone has the key of the first certificate; its signature, validity and names and the other members of the chain make no difference.", "quantifier": "every chain of certificates", "why_tests_cant": "all certificates", "anchors": ["src/jwkest/jwk.py:RSAKey.deserialize", "src/jwkest/jwk.py:der2rsa"]}
{"id": "C218", "title": "the kid of an encrypted token selects the key", "statement": "Decrypting what factory has read is decrypting the token with those of the keys that have its kid. decrypt of a fresh instance uses only keys with the kid of the token.", "quantifier": "every token and list of keys", "why_tests_cant": "all tokens", "anchors": ["src/jwkest/jwe.py:factory", "src/jwkest/jwe.py:JWE.decrypt", "src/jwkest/jws.py:JWx.pick_keys"]}
{"id": "C219", "title": "only the ten algorithms of key management are accepted", "statement": "JWE.decrypt returns a message only if the alg of the token is one of the ten that RFC 7518 defines for RSA, AES key wrap and ECDH-ES.", "quantifier": "every token, keys and content key", "why_tests_cant": "all names", "anchors": ["src/jwkest/jwe.py:JWE.decrypt"]}
{"id": "C220", "title": "recognition of values that are no text", "statement": "is_jws of a value that is neither text nor octets raises AttributeError.", "quantifier": "every such value", "why_tests_cant": "all values", "anchors": ["src/jwkest/jws.py:JWS.is_jws"]}
{"id": "C221", "title": "integers of certificates are in two's complement", "statement": "An integer of n octets read by der2rsa lies between -256^n/2 and 256^n/2 and is congruent modulo 256^n to its octets read as an unsigned number.", "quantifier": "every nonempty octet string", "why_tests_cant": "all integers", "anchors": ["src/jwkest/jwk.py:der2rsa"]}
{"id": "C222", "title": "a refused token leaves nothing behind", "statement": "After JWT.unpack has raised, the object is as it was before.", "quantifier": "every object and token", "why_tests_cant": "all refused tokens", "anchors": ["src/jwkest/jwt.py:JWT.unpack", "src/jwkest/jwt.py:JWT.payload"]}
{"id": "C223", "title": "using a key does not change it", "statement": "After encryption_key has returned, calling it again returns the same, the key equals exactly what it was equal to before, and what it can do is the same.", "quantifier": "every key", "why_tests_cant": "all keys", "anchors": ["src/jwkest/jwk.py:RSAKey.encryption_key", "src/jwkest/jwk.py:SYMKey.encryption_key", "src/jwkest/jwk.py:SYMKey.deserialize", "src/jwkest/jwk.py:RSAKey.deserialize", "src/jwkest/jwk.py:Key.serialize"]}
{"id": "C224", "title": "signed tokens of other implementations are accepted", "statement": "A compact token is verified if its header is any UTF-8 JSON object with a supported alg and a text as cty (or none) and its signature is valid per RFC 7518 under one of the given keys that fits.", "quantifier": "every header, payload and key", "why_tests_cant": "all conforming tokens", "anchors": ["src/jwkest/jws.py:JWS.verify_compact", "src/jwkest/jwt.py:JWT.unpack"]}
{"id": "C225", "title": "encrypted tokens of other implementations are decrypted with RSA", "statement": "A compact token whose header is any UTF-8 JSON object with an RSA algorithm, whose content key is encrypted under the key and whose content is that of RFC 7518 5.2 or 5.3, is decrypted to its text.", "quantifier": "every header, text and key", "why_tests_cant": "all conforming tokens", "anchors": ["src/jwkest/jwe.py:JWE.decrypt", "src/jwkest/jwe.py:JWE_RSA.decrypt", "src/jwkest/jwe.py:JWEnc.b64_protected_header", "src/jwkest/aes_gcm.py:AES_GCM.decrypt"]}
{"id": "C226", "title": "encrypted tokens of other implementations are decrypted with AES key wrap", "statement": "A compact token with A128KW, A192KW or A256KW whose content key is wrapped under the key per RFC 3394 is decrypted to its text.", "quantifier": "every header, text and key", "why_tests_cant": "all conforming tokens", "anchors": ["src/jwkest/jwe.py:JWE.decrypt", "src/jwkest/jwe.py:JWE_SYM.decrypt", "src/jwkest/jwk.py:SYMKey.encryption_key", "src/jwkest/aes_key_wrap.py:aes_unwrap_key"]}
{"id": "C227", "title": "a failed pack leaves nothing behind", "statement": "After JWT.pack has raised, the object is as it was before.", "quantifier": "every object, parts and headers", "why_tests_cant": "all failures", "anchors": ["src/jwkest/jwt.py:JWT.pack"]}
{"id": "C228", "title": "an instance used before encrypts and decrypts as a new one", "statement": "After any sequence of successful encrypt and decrypt calls, decrypt and encrypt of a JWE instance return what they return for the instance as it was made; in particular every encryption draws its own content key.", "quantifier": "every instance, every sequence of calls", "why_tests_cant": "sequences of calls are unbounded", "anchors": ["src/jwkest/jwe.py:JWE.encrypt", "src/jwkest/jwe.py:JWE.decrypt", "src/jwkest/jwe.py:JWE_EC.enc_setup"]}
{"id": "C229", "title": "a JWS instance used before accepts no more", "statement": "After any sequence of verifications, signatures and is_jws calls, successful or not, verify_compact of the instance answers what it answers for the instance as it was made, or refuses the token because its alg is not the one remembered.", "quantifier": "every instance, every sequence of calls", "why_tests_cant": "sequences of calls are unbounded", "anchors": ["src/jwkest/jws.py:JWS.verify_compact", "src/jwkest/jws.py:JWS.sign_compact", "src/jwkest/jws.py:JWS.is_jws"]}
{"id": "C230", "title": "a refused JSON token leaves the instance harmless", "statement": "verify_json does not depend on the instance it is called on. After it has refused a token, the instance accepts nothing it would not have accepted before.", "quantifier": "every instance and text", "why_tests_cant": "all refused tokens", "anchors": ["src/jwkest/jws.py:JWS.verify_json", "src/jwkest/jws.py:JWx.__init__"]}
{"id": "C231", "title": "a signed token inside an encrypted one comes back", "statement": "A compact JWS encrypted as message of a JWE decrypts to octets that verify_compact accepts, with the signed message as payload.", "quantifier": "every signed token, every key management algorithm, all keys that fit", "why_tests_cant": "the combination of all algorithms and contents", "anchors": ["src/jwkest/jwe.py:JWE.encrypt", "src/jwkest/jwe.py:JWE.decrypt", "src/jwkest/jws.py:JWS.verify_compact"]}
{"id": "C232", "title": "what the header of an encrypted token says", "statement": "The protected header has alg and enc of the instance, the kid given by the caller (not RSA), else that of the key, else that of the instance, jku, x5u, x5t, typ and cty of the instance, the public form of its jwk, for key agreement the public form of the ephemeral key, and no other members: neither content key nor message nor private numbers.", "quantifier": "every instance, keys and arguments", "why_tests_cant": "all instances", "anchors": ["src/jwkest/jwe.py:JWE.encrypt", "src/jwkest/jwe.py:JWE_SYM.encrypt", "src/jwkest/jwe.py:JWE_RSA.encrypt", "src/jwkest/jwe.py:JWE_EC.enc_setup", "src/jwkest/jwe.py:JWE_EC.encrypt", "src/jwkest/jws.py:JWx.headers"]}
{"id": "C233", "title": "thumbprints tell keys apart", "statement": "Two complete keys with the same thumbprint, or with the same kid made by add_kid, have the same type and public numbers (or secret), or the two texts hashed are a collision of the hash function.", "quantifier": "every pair of keys", "why_tests_cant": "all pairs", "anchors": ["src/jwkest/jwk.py:Key.thumbprint", "src/jwkest/jwk.py:Key.add_kid"]}
{"id": "C234", "title": "hexread is read in hexadecimal", "statement": "hexread(n) returns the 2n lower-case hexadecimal digits of the next n octets of the stream.", "quantifier": "every object, every sequence of reads, every n", "why_tests_cant": "unbounded streams", "anchors": ["src/jwkest/PBKDF2.py:PBKDF2.hexread", "src/jwkest/PBKDF2.py:PBKDF2.read"]}
{"id": "C235", "title": "a compressed point determines the point", "statement": "Two points of a built-in curve with the same compressed form are the same point; a point and its opposite have different sign bits.", "quantifier": "all points of the three curves", "why_tests_cant": "more points than can be tried", "anchors": ["src/jwkest/ecc.py:NISTEllipticCurve.compress", "src/jwkest/elliptic.py:sign_bit"]}
{"id": "C236", "title": "curve_q gives the curve through a point", "statement": "For every point, p and modulus there is exactly one q between 0 and the modulus such that the point is on the curve, and curve_q returns it.", "quantifier": "all integers and moduli", "why_tests_cant": "unbounded integers", "anchors": ["src/jwkest/elliptic.py:curve_q", "src/jwkest/elliptic.py:element"]}
{"id": "C237", "title": "ecdh_derive_key", "statement": "ecdh_derive_key hashes the shared secret, the name and both parties with their lengths and the number of bits with the Concat KDF; both sides get the same key of the size asked for.", "quantifier": "all key pairs of the three curves, all parties, names and sizes", "why_tests_cant": "more keys than can be tried", "anchors": ["src/jwkest/extra.py:ecdh_derive_key", "src/jwkest/extra.py:concat_sha256"]}
{"id": "C238", "title": "intarr2bin", "statement": "intarr2bin turns a list of octets into the bytes with these values.", "quantifier": "all lists of octets", "why_tests_cant": "unbounded lists", "anchors": ["src/jwkest/__init__.py:intarr2bin"]}
{"id": "C239", "title": "base64url_to_long of a text", "statement": "base64url_to_long decodes a text in the alphabet of base64url to the integer base64_to_long decodes it to.", "quantifier": "all texts", "why_tests_cant": "all texts", "anchors": ["src/jwkest/__init__.py:base64url_to_long"]}
{"id": "C240", "title": "loading an RSA key from a file", "statement": "RSAKey().load(filename) is the object RSAKey(key=k) for the key in the file; if the file cannot be read or holds no key, the object stays as it was.", "quantifier": "every file and key", "why_tests_cant": "all files", "anchors": ["src/jwkest/jwk.py:RSAKey.load", "src/jwkest/jwk.py:rsa_load", "src/jwkest/jwk.py:x509_rsa_load"]}
{"id": "C241", "title": "signing leaves the caller's header dictionary as it was", "statement": "After sign_compact or sign_json the dictionaries of protected headers passed by the caller are what they were before, so that using them again has no effect on later tokens.", "quantifier": "every instance, keys and dictionary", "why_tests_cant": "all sequences of calls", "anchors": ["src/jwkest/jws.py:JWS.alg_keys", "src/jwkest/jws.py:JWS.sign_compact", "src/jwkest/jws.py:JWS.sign_json"]}
{"id": "C242", "title": "entries of sign_json may share a dictionary", "statement": "If several entries of headers are one and the same dictionary object, sign_json returns what it returns for copies of it.", "quantifier": "every sharing of dictionaries, every list of entries", "why_tests_cant": "all patterns of sharing", "anchors": ["src/jwkest/jws.py:JWS.sign_json", "src/jwkest/jws.py:JWS.alg_keys"]}
{"id": "C243", "title": "JSON headers and payloads are read as RFC 8259 says", "statement": "The json.loads the package applies to headers, payloads and key sets accepts a text exactly if the grammar of RFC 8259 (with CPython's NaN, Infinity and -Infinity) derives it, and returns the value the grammar gives it; every other text is a JSONDecodeError; what json.dumps writes is in the grammar.", "quantifier": "all texts and values", "why_tests_cant": "unboundedly many texts, including every nesting depth", "anchors": ["src/jwkest/jwt.py:JWT.unpack", "src/jwkest/jwt.py:JWT.payload", "src/jwkest/jwt.py:b64encode_item"]}
{"id": "C244", "title": "repeated members in a header", "statement": "If a member name occurs more than once in a header, the last occurrence alone counts, and the parsed header has every name once.", "quantifier": "every object text, white space and order of members", "why_tests_cant": "all repetitions", "anchors": ["src/jwkest/jwt.py:JWT.unpack"]}
{"id": "C245", "title": "texts are encoded as RFC 3629 says", "statement": "Encoding a text gives exactly its UTF-8 octets and raises UnicodeEncodeError exactly if a character has none (a surrogate); decoding octets gives the text they encode and raises UnicodeDecodeError exactly if they encode none.", "quantifier": "all texts and byte strings", "why_tests_cant": "all texts", "anchors": ["src/jwkest/__init__.py:as_bytes", "src/jwkest/__init__.py:as_unicode", "src/jwkest/jwt.py:JWT.unpack"]}
{"id": "C246", "title": "as_unicode and as_bytes", "statement": "as_unicode turns UTF-8 octets into their text and returns everything else, also other octets, unchanged; as_bytes turns a text into its UTF-8 octets, raises UnicodeEncodeError for a text with a surrogate, and returns everything else unchanged.", "quantifier": "all values", "why_tests_cant": "all values", "anchors": ["src/jwkest/__init__.py:as_unicode", "src/jwkest/__init__.py:as_bytes"]}
{"id": "C247", "title": "b64d_enc_dec", "statement": "b64d_enc_dec returns t for exactly the ASCII texts whose base64url decoding is the UTF-8 encoding of t.", "quantifier": "all texts", "why_tests_cant": "all texts", "anchors": ["src/jwkest/__init__.py:b64d_enc_dec"]}
{"id": "C248", "title": "JSON in byte strings", "statement": "json.loads of a byte string returns v exactly if the byte string is the UTF-8 encoding of a JSON text with value v.", "quantifier": "all byte strings that are UTF-8", "why_tests_cant": "the guess of the encoding depends on the first four octets", "anchors": ["src/jwkest/jwt.py:JWT.payload", "src/jwkest/jwk.py:KEYS.load_jwks"]}
{"id": "C249", "title": "what unpack accepts", "statement": "unpack accepts a token exactly if its octets are two or more parts joined by dots, every part decodes, and the first part is the UTF-8 encoding of a JSON text; the header is the value of that text and the parts are the decoded octets.", "quantifier": "all tokens", "why_tests_cant": "all tokens", "anchors": ["src/jwkest/jwt.py:JWT.unpack", "src/jwkest/jwt.py:split_token"]}
{"id": "C250", "title": "factory and headers that are not objects", "statement": "factory raises TypeError for a compact token whose header is a number, null, true or false, a text containing alg, a list containing alg, or an object whose alg is a list or object; for every other token that can be unpacked it returns.", "quantifier": "all tokens", "why_tests_cant": "all JSON values as header", "anchors": ["src/jwkest/jws.py:factory", "src/jwkest/jws.py:JWS._is_compact_jws"]}
{"id": "C251", "title": "payload and cty", "statement": "payload expects JSON if cty is missing or is JWT in any case of letters, returns the text for any other cty that is a text or byte string, and raises AttributeError for a cty of another type.", "quantifier": "all headers that are dictionaries and all payloads", "why_tests_cant": "all values of cty", "anchors": ["src/jwkest/jwt.py:JWT.payload"]}
{"id": "C252", "title": "what JWE.decrypt can raise", "statement": "Called with a non-empty list of complete keys on an unused instance, decrypt of a token from outside raises only: BadSyntax, ValueError or a subclass, one of the exceptions of jwe.py and of the primitives (WrongEncryptionAlgorithm, NoSuitableDecryptionKey, NotSupportedAlgorithm, DecryptionFailed, WrongNumberOfParts, VerificationFailure, InvalidTagException, InvalidInputException, Exception, struct.error, OverflowError), and otherwise TypeError if the header is not an object, KeyError if alg is missing, false or an unknown name of the form A...KW, AttributeError if alg is not text, zlib.error or TypeError for the RSA algorithms, IndexError for tokens with fewer than five parts, and for ECDH-ES TypeError, AttributeError, ECCException, DeSerializationNotPossible, HeaderError or KeyError for a missing enc.", "quantifier": "all tokens that are text or octets, all lists of complete keys, every alg argument", "why_tests_cant": "all malformed tokens", "anchors": ["src/jwkest/jwe.py:JWE.decrypt", "src/jwkest/jwe.py:JWE_SYM.decrypt", "src/jwkest/jwe.py:JWE_RSA.decrypt", "src/jwkest/jwe.py:JWE_EC.dec_setup"]}
{"id": "C253", "title": "one signature, few hashes", "statement": "On the three curves a given signature is accepted under a given public key for at most four values of the truncated hash modulo N, and for at most two if r + N is at least p.", "quantifier": "all byte strings as signature, all points of the curve as key, all hashes", "why_tests_cant": "a collision search over all hashes", "anchors": ["src/jwkest/ecc.py:NISTEllipticCurve.verify"]}
{"id": "C254", "title": "one signature, few keys", "statement": "On the three curves a given signature is accepted for a given hash under at most four key pairs, and under at most two if r + N is at least p.", "quantifier": "all byte strings as signature, all hashes and key pairs", "why_tests_cant": "a search over all keys", "anchors": ["src/jwkest/ecc.py:NISTEllipticCurve.verify", "src/jwkest/ecc.py:NISTEllipticCurve.public_key_for"]}
{"id": "C255", "title": "the other signatures with the same r", "statement": "For a given key pair, hash and r at most four values of s are accepted; if r + N is at least p and s is accepted then exactly s and N - s are.", "quantifier": "all key pairs, hashes, r and s", "why_tests_cant": "all values of s", "anchors": ["src/jwkest/ecc.py:NISTEllipticCurve.verify"]}
{"id": "C256", "title": "public keys and shared secrets determine the private key", "statement": "Two private keys below N with the same public key are equal; two private keys have the same shared secret with some key pair exactly if they are equal or add up to N.", "quantifier": "all private keys", "why_tests_cant": "all pairs of private keys", "anchors": ["src/jwkest/ecc.py:NISTEllipticCurve.public_key_for", "src/jwkest/ecc.py:NISTEllipticCurve.dh_z"]}
{"id": "C257", "title": "a known or repeated nonce gives the private key away", "statement": "From a signature made with a known k the private key is (s k - h) / r modulo N. Two signatures made with the same k over different truncated hashes have the same r and different s, and k is (h - h') / (s - s'), so the private key follows.", "quantifier": "all private keys, nonces and hashes", "why_tests_cant": "all nonces", "anchors": ["src/jwkest/ecc.py:NISTEllipticCurve.sign", "src/jwkest/ecc.py:NISTEllipticCurve._sign_loop"]}
{"id": "C258", "title": "scalars below zero", "statement": "mulp(P, c) is -P for every c < 0, whatever c is, mul(P, c) is the neutral element, and muladdp raises IndexError if a scalar is below -3.", "quantifier": "all moduli, points and scalars", "why_tests_cant": "all scalars", "anchors": ["src/jwkest/elliptic.py:mulp", "src/jwkest/elliptic.py:mul", "src/jwkest/elliptic.py:muladdp", "src/jwkest/elliptic.py:_signed_bin"]}
{"id": "C259", "title": "key identifiers that are not text", "statement": "A kid that Python takes for false - null, false, 0, a zero float, an empty text, list or object, and no other value - restricts the choice of keys as little as no kid; the kids true and 1, and false and 0, are the same, in the choice of keys and in by_kid; among the octets of a number true and false are 1 and 0.", "quantifier": "all headers, key lists and JSON values", "why_tests_cant": "all JSON values", "anchors": ["src/jwkest/jws.py:JWx.pick_keys", "src/jwkest/jwk.py:KEYS.by_kid", "src/jwkest/jwk.py:deser"]}
{"id": "C260", "title": "protected headers of the JSON serialization", "statement": "If verify_json returns, the protected header of every entry is a JSON object that names an algorithm of the table (or none, if that is allowed), whatever its unprotected header says. A protected header that is a number, a boolean or null raises TypeError, a text raises ValueError, and the instance is not touched; a list of pairs is merged like an object before it is refused.", "quantifier": "all JSON texts and headers", "why_tests_cant": "all JSON values as header", "anchors": ["src/jwkest/jws.py:JWS.verify_json"]}
{"id": "C261", "title": "header dictionaries used twice in one call", "statement": "sign_json gives the same text for dictionaries used both as protected and as unprotected headers as for copies of them.", "quantifier": "all header lists, keys and stores of dictionaries", "why_tests_cant": "aliasing of mutable arguments", "anchors": ["src/jwkest/jws.py:JWS.sign_json", "src/jwkest/jws.py:JWS.alg_keys"]}
{"id": "C262", "title": "the self-test of PBKDF2.py passes", "statement": "test_pbkdf2() returns without raising.", "quantifier": "every behaviour of HMAC-SHA-1, Python 2 and Python 3", "why_tests_cant": "the claim fails whatever the MAC computes", "anchors": ["src/jwkest/PBKDF2.py:test_pbkdf2"]}
{"id": "C263", "title": "messages that are neither text nor bytes", "statement": "JWE.encrypt refuses every message that is neither text nor bytes.", "quantifier": "all messages, algorithms, keys and header parameters", "why_tests_cant": "all values as message", "anchors": ["src/jwkest/jwe.py:JWE.encrypt", "src/jwkest/jwe.py:JWe.enc_setup", "src/jwkest/__init__.py:as_bytes", "src/jwkest/aes_gcm.py:AES_GCM.encrypt"]}
{"id": "C264", "title": "the numbers base64_to_long and base64url_to_long read", "statement": "base64url_to_long(s) returns exactly if s contains none of + / =, and the characters of s that are base64url digits are not none of them and do not leave one over in groups of four; the result is the number these digits spell in base 64, without the 2 or 4 bits that do not fill an octet. base64_to_long takes + / = too: a padding that fits ends the number, and whatever follows it is ignored.", "quantifier": "all octet strings", "why_tests_cant": "all octet strings", "anchors": ["src/jwkest/__init__.py:base64url_to_long", "src/jwkest/__init__.py:base64_to_long"]}
{"id": "C265", "title": "octet strings accepted as ECDSA signatures", "statement": "verify accepts an octet string exactly if it is an accepted signature of twice the length of the order in which zeros have been inserted, or leading zeros of s left out, in front of s; signatures with the same two numbers are accepted alike.", "quantifier": "all curves, hashes, public keys and octet strings of any length", "why_tests_cant": "all octet strings", "anchors": ["src/jwkest/ecc.py:NISTEllipticCurve.verify"]}
{"id": "C266", "title": "the points mulp multiplies correctly", "statement": "On a nonsingular curve over a prime field mulp(P, c) is c times P for every c >= 0 exactly if P has odd order, that is, if 2m times P is the neutral element only if m times P is. It is right for every c such that no m P with 0 < m < c has order two, and (0, 0) at twice the first m such that m P has order two.", "quantifier": "every prime > 3, nonsingular curve, point and scalar", "why_tests_cant": "all points and scalars", "anchors": ["src/jwkest/elliptic.py:mulp", "src/jwkest/elliptic.py:mulf", "src/jwkest/elliptic.py:doublef"]}
{"id": "C267", "title": "the main program of elliptic.py", "statement": "The two sides of the key agreement in the main program of elliptic.py compute the same point, and so do the two computations its function test takes the times of.", "quantifier": "every prime, curve, point and scalars the program can draw", "why_tests_cant": "all random draws", "anchors": ["src/jwkest/elliptic.py:__main__", "src/jwkest/elliptic.py:mulp", "src/jwkest/elliptic.py:muladdp"]}
{"id": "C268", "title": "the shared secret with a point of order two", "statement": "The shared secret of d and (x, 0), for x other than 1 and -1, on the curve or not: with w the number of non-zero digits of d in non-adjacent form, dh_z raises TypeError if 3 divides w, gives x if w is 1 modulo 3 and d odd, and zero otherwise.", "quantifier": "every built-in curve, x and private value", "why_tests_cant": "all private values", "anchors": ["src/jwkest/ecc.py:NISTEllipticCurve.dh_z", "src/jwkest/elliptic.py:mulp"]}
{"id": "C269", "title": "the octet strings b64d decodes", "statement": "b64d(b) returns exactly if b is a string x of base64url characters, possibly followed by one newline and then padding, followed by any number of =, where the length of x is not one more than a multiple of four, and any = that are there complete the last group; the result is the number x spells in base 64, without the 2 or 4 bits that do not fill an octet, in big-endian octets. BadSyntax is raised exactly for other characters and for unpadded text of length 4n + 1, otherwise binascii.Error.", "quantifier": "all octet strings", "why_tests_cant": "all octet strings", "anchors": ["src/jwkest/__init__.py:b64d", "src/jwkest/__init__.py:add_padding"]}
{"id": "C270", "title": "how many texts an octet string has", "statement": "The unpadded texts b64d decodes to a given octet string of n octets are exactly 1 if n is a multiple of 3, 16 if it is one more, and 4 if it is two more.", "quantifier": "all octet strings", "why_tests_cant": "all texts for all octet strings", "anchors": ["src/jwkest/__init__.py:b64d"]}
{"id": "C271", "title": "the texts of a signature", "statement": "verify_compact gives the same result for two tokens whose signature segments decode to the same octets. With one key and a symmetric algorithm, the unpadded signature segments accepted with a given header and payload segment are 4 for HS256, 1 for HS384 and 16 for HS512, once one is accepted.", "quantifier": "all instances, tokens, keys and MACs of the standard sizes", "why_tests_cant": "all texts of the signature segment", "anchors": ["src/jwkest/jws.py:JWS.verify_compact_verbose", "src/jwkest/jwt.py:JWT.unpack"]}
{"id": "C272", "title": "the texts of an encrypted token", "statement": "JWE.decrypt gives the same result and the same instance for two tokens with the same header text whose other segments decode to the same octets; each segment has 1, 16 or 4 unpadded texts, by its length modulo 3, with which the token decrypts alike.", "quantifier": "all instances, tokens and keys", "why_tests_cant": "all texts of every segment", "anchors": ["src/jwkest/jwe.py:JWE.decrypt", "src/jwkest/jwt.py:JWT.unpack"]}
{"id": "C273", "title": "the key sizes implemented_keys lists", "statement": "implemented_keys() lists exactly the sizes get_curve accepts, implemented_keys(True) exactly those whose curve has a known order, each once; every other size raises KeyError. The size is the number of bits of the prime and of the order, the base points are on the curves, and the curves by_name gives are among those with known order.", "quantifier": "all sizes and names", "why_tests_cant": "all integers as size", "anchors": ["src/jwkest/curves.py:implemented_keys", "src/jwkest/curves.py:get_curve", "src/jwkest/ecc.py:NISTEllipticCurve.by_name"]}
{"id": "C274", "title": "secrets and numbers of keys given as JSON values of any type", "statement": "SYMKey(k=v) reads from a text its UTF-8 octets, from a list of integers 0 to 255 (or booleans, as 0 and 1) these octets, and the secret is what b64d makes of them; a v that Python takes for false gives a key without secret; a list with another item raises TypeError or ValueError, by the first such item, a positive number or true raises BadSyntax, a negative number ValueError, a fraction or an object TypeError. Numbers of keys are read from the same values, by base64_to_long.", "quantifier": "all JSON values as k or number", "why_tests_cant": "all JSON values", "anchors": ["src/jwkest/jwk.py:SYMKey.__init__", "src/jwkest/jwk.py:deser", "src/jwkest/__init__.py:base64_to_long"]}
{"id": "C275", "title": "what the length of an encrypted token says about the message", "statement": "In every token JWE.encrypt returns, the ciphertext segment of a plaintext of n octets has (4n+2)/3 characters (rounded down) with GCM and as many as 16*(n/16+1) octets have with CBC; so 3/4 of its length is n with GCM, and the next larger multiple of 16 with CBC. The tag segment has 22, 32 or 43 characters with CBC, as the content key has 32, 48 or 64 octets, and from 2 to 22 with GCM; without a cek given the content key has the size enc asks for. The plaintext is the message as UTF-8, compressed only if an RSA algorithm is used and zip is DEF.", "quantifier": "all instances, messages, keys and algorithms", "why_tests_cant": "messages of every length", "anchors": ["src/jwkest/jwe.py:JWE.encrypt", "src/jwkest/jwe.py:JWe.enc_setup", "src/jwkest/extra.py:pkcs5pad", "src/jwkest/extra.py:aes_cbc_hmac_encrypt", "src/jwkest/aes_gcm.py:AES_GCM.encrypt"]}
{"id": "C276", "title": "what verify_json can raise", "statement": "With at least one key, all of them usable, JWS.verify_json of a text either returns or raises ValueError (or a subclass), BadSyntax, WrongNumberOfParts, SignerAlgError, NoSuitableSigningKeys, BadSignature, AssertionError, KeyError, TypeError or AttributeError; JwsFormatError, namely for every object without payload; or what loading the key in the header parameter jwk of one of the signatures raises.", "quantifier": "all instances, texts, keys and options", "why_tests_cant": "all texts", "anchors": ["src/jwkest/jws.py:JWS.verify_json"]}
{"id": "C277", "title": "what loading a key from a JSON value can raise", "statement": "keyrep of a JSON value either returns or raises ValueError (or a subclass), AttributeError, KeyError, TypeError, ECCException, DeSerializationNotPossible, HeaderError or BadSyntax, or what RSA.construct or the reader of certificates raises. If these raise ValueError only, verify_json of a text raises nothing but these, WrongNumberOfParts, SignerAlgError, NoSuitableSigningKeys, BadSignature, AssertionError and JwsFormatError, the last exactly for objects without payload.", "quantifier": "all JSON values and texts", "why_tests_cant": "all JSON values", "anchors": ["src/jwkest/jwk.py:keyrep", "src/jwkest/jws.py:JWS.verify_json"]}
{"id": "C278", "title": "what signing can raise", "statement": "With at least one key, JWS.sign_compact either returns or raises ValueError (or a subclass), NoSuitableSigningKeys, UnknownAlgorithm, TypeError or AttributeError, or what the RSA library raises when signing; OverflowError only if the key object one of the keys gives for signing is a text or an octet string; and the search for a nonce can only go on without end with ES256, ES384 or ES512.", "quantifier": "all instances, messages, keys, protected headers and random numbers", "why_tests_cant": "all messages, header parameters and keys", "anchors": ["src/jwkest/jws.py:JWS.sign_compact", "src/jwkest/jws.py:JWS.alg_keys", "src/jwkest/jws.py:DSASigner.sign"]}
{"id": "C279", "title": "what encrypting can raise", "statement": "For an instance without key objects and with at least one usable key, JWE.encrypt either returns or raises ValueError (or a subclass), NoSuitableEncryptionKey, NotSupportedAlgorithm, InvalidInputException, OverflowError, struct.error, Exception, TypeError or AttributeError; KeyError only if alg or enc is missing or alg is not in ALG2KEYLEN; ParameterError only for a zip other than DEF and HeaderError only for a kid that is no text, both only with the RSA algorithms, where also what the RSA library raises can come out; ECCException, SerializationNotPossible and BadSyntax only with ECDH-ES.", "quantifier": "all instances, messages, keys, content keys and random octets", "why_tests_cant": "all messages, header parameters and keys", "anchors": ["src/jwkest/jwe.py:JWE.encrypt", "src/jwkest/jwe.py:JWE_RSA.encrypt", "src/jwkest/jwe.py:JWE_SYM.encrypt", "src/jwkest/jwe.py:JWE_EC.enc_setup"]}
{"id": "C280", "title": "what sign_json can raise", "statement": "With at least one key, JWS.sign_json either returns or raises ValueError (or a subclass), NoSuitableSigningKeys, UnknownAlgorithm, TypeError or AttributeError, what the RSA library raises when signing, or what loading the key in the parameter jwk of one of the protected headers given raises; OverflowError only if the key object one of the keys gives for signing is a text or an octet string; and the search for a nonce can only go on without end if the algorithm of some entry (that of its protected header, otherwise that of the instance) is ES256, ES384 or ES512.", "quantifier": "all instances, messages, keys, headers and random numbers", "why_tests_cant": "all lists of header pairs", "anchors": ["src/jwkest/jws.py:JWS.sign_json", "src/jwkest/jws.py:JWS.sign_compact", "src/jwkest/jws.py:JWS.__init__"]}
{"id": "C281", "title": "which keys can be serialized", "statement": "serialize returns for exactly these keys: those of the base class (None); RSA keys with a key object whose numbers to be written (n and e, or all nine) are positive integers or false in Python's sense; EC keys with a curve and positive integers as coordinates and, if it is to be written and true, as private value; symmetric keys whose secret is an octet string, a boolean, an integer of at least 0, a list of integers 0 to 255 or an empty dictionary. to_dict returns for the same keys except those of the base class. Otherwise SerializationNotPossible, AttributeError, TypeError or ValueError is raised, by the kind of key, or a negative number is divided without end.", "quantifier": "all keys; the exceptions for keys without fractions as numbers", "why_tests_cant": "all keys and all values of their attributes", "anchors": ["src/jwkest/jwk.py:RSAKey.serialize", "src/jwkest/jwk.py:ECKey.serialize", "src/jwkest/jwk.py:SYMKey.serialize", "src/jwkest/jwk.py:Key.to_dict", "src/jwkest/__init__.py:long_to_base64"]}
{"id": "C282", "title": "which keys have a thumbprint", "statement": "thumbprint of a key whose kty is a text returns exactly if serialize() of its public part returns, the key is not of the base class and the hash is named SHA-256, SHA-384 or SHA-512. hash(key) returns exactly if the key has a thumbprint or its hash is known already and not 0.", "quantifier": "all keys and hash names", "why_tests_cant": "all keys and all values of their attributes", "anchors": ["src/jwkest/jwk.py:Key.thumbprint", "src/jwkest/jwk.py:Key.__hash__"]}
{"id": "C283", "title": "which values can be packed", "statement": "b64encode_item returns exactly for octet strings, texts without surrogates, null, and lists and dictionaries in which no fraction occurs and every octet string is UTF-8; JWT.pack of a non-empty list of parts returns exactly if all parts and the header are of this kind, the header being the one given, else that of the instance, else {'alg': 'none'}. The constructor JWT(**headers) returns exactly if its parameters can be packed, alg being replaced by null if it is missing or false.", "quantifier": "all instances, headers and non-empty lists of parts", "why_tests_cant": "all values and nestings", "anchors": ["src/jwkest/jwt.py:b64encode_item", "src/jwkest/jwt.py:b2s_conv", "src/jwkest/jwt.py:JWT.pack", "src/jwkest/jwt.py:JWT.__init__"]}
{"id": "C284", "title": "which key sets can be dumped", "statement": "KEYS.dump_jwks returns exactly if every key of the set can be serialized without its private part and no fraction occurs in what it is serialized to and every octet string in it is UTF-8; so a set can be dumped exactly if each of its keys can be dumped by itself.", "quantifier": "all key sets", "why_tests_cant": "all keys and all values of their attributes", "anchors": ["src/jwkest/jwk.py:KEYS.dump_jwks", "src/jwkest/jwt.py:b2s_conv"]}
{"id": "C285", "title": "key sets with types that are no text", "statement": "keys[type] and as_dict() of a key set return exactly if the type of every key is a text or an octet string, otherwise AttributeError is raised; keys[type] then holds exactly the keys whose type is a text equal to the one asked for but for case. key_types() returns exactly if no type is a list or a dictionary, otherwise TypeError is raised.", "quantifier": "all key sets", "why_tests_cant": "all values of the type", "anchors": ["src/jwkest/jwk.py:KEYS.__getitem__", "src/jwkest/jwk.py:KEYS.as_dict", "src/jwkest/jwk.py:KEYS.key_types"]}
{"id": "C286", "title": "what aes_wrap_key accepts and what its result says", "statement": "aes_wrap_key returns exactly for keys of 16, 24 or 32 octets and initial values of 64 bits; otherwise it raises ValueError for the key and struct.error for the initial value. Two results under the same key are equal exactly if the initial values and the texts without the octets after the last whole block of eight are equal.", "quantifier": "all keys, texts below 2^63 octets and initial values", "why_tests_cant": "all lengths and integers", "anchors": ["src/jwkest/aes_key_wrap.py:aes_wrap_key"]}
