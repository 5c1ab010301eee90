#!/usr/bin/env python3
"""Writes /verif/properties.jsonl (one JSON object per line) from the table below."""
import json, os
P = []
def p(title, statement, quantifier, why, *anchors):
    P.append(dict(id="C%02d" % (len(P) + 1), title=title, statement=statement, quantifier=quantifier,
                  why_tests_cant=why, anchors=list(anchors)))
I = "src/jwkest/__init__.py:"; T = "src/jwkest/jwt.py:"; S = "src/jwkest/jws.py:"; K = "src/jwkest/jwk.py:"
E = "src/jwkest/jwe.py:"; X = "src/jwkest/extra.py:"; W = "src/jwkest/aes_key_wrap.py:"; G = "src/jwkest/aes_gcm.py:"
L = "src/jwkest/elliptic.py:"; C = "src/jwkest/ecc.py:"; V = "src/jwkest/curves.py:"; B = "src/jwkest/PBKDF2.py:"

# --- encoding helpers ---------------------------------------------------------------------------------
p("base64url round trip",
  "Decoding the library's base64url encoding of any byte string gives that byte string back: b64d(b64e(b)) == b.",
  "every byte string b, of any length", "infinitely many byte strings; three residue classes of the length interact with padding removal and re-adding",
  I+"b64e", I+"b64d", I+"add_padding")
p("base64url output alphabet and length",
  "b64e(b) consists only of A-Z a-z 0-9 - _ (so never '.', '=' or whitespace) and has exactly ceil(4*len(b)/3) characters; hence a token segment can never contain a separator.",
  "every byte string b", "must hold for every byte of every input, not just samples",
  I+"b64e")
p("b64d rejects everything that is not base64url",
  "b64d raises instead of returning whenever the input (after removing trailing '=') contains a character outside the base64url alphabet.",
  "every byte string given to b64d", "negative property over all malformed inputs",
  I+"b64d", I+"_b64_re")
p("unpadded base64url text decodes canonically",
  "If b64d accepts two different unpadded inputs, the decoded byte strings differ, i.e. decoding is injective; equivalently re-encoding the decoded bytes gives the input back.",
  "every pair of accepted unpadded inputs", "pairs of inputs; malleability is invisible to positive tests",
  I+"b64d", I+"b64e")
p("integer codec round trip",
  "base64_to_long(long_to_base64(n)) == n, and the text is unpadded base64url of the minimal big-endian representation of n.",
  "every integer n >= 0", "unbounded integers",
  I+"long_to_base64", I+"base64_to_long", I+"long2intarr", I+"intarr2long")
p("base64url_to_long is strict",
  "base64url_to_long raises for every input that is not base64url text (the docstring says it 'really checks').",
  "every byte string", "negative property over all malformed inputs",
  I+"base64url_to_long")
p("constant-time comparison is equality",
  "constant_time_compare(a, b) and safe_str_cmp(a, b) return True exactly when a == b.",
  "every pair of byte strings / strings, of equal or different lengths", "a lossy accumulator (OR instead of XOR, wrong length test) can agree with equality on any finite sample",
  I+"constant_time_compare", I+"safe_str_cmp")
p("long2intarr / intarr2long are inverse",
  "intarr2long(long2intarr(n)) == n for n > 0, and long2intarr(intarr2long(a)) is a without its leading zero bytes.",
  "every positive integer and every non-empty byte array", "unbounded integers and arrays",
  I+"long2intarr", I+"intarr2long")
p("long2hexseq encodes every non-negative integer",
  "long2hexseq(n) returns the big-endian byte string whose integer value is n.",
  "every integer n >= 0", "half of all integers have an odd number of hex digits",
  I+"long2hexseq")
# --- JWT container ------------------------------------------------------------------------------------
p("JWT pack/unpack round trip",
  "Unpacking a packed token yields exactly the byte parts that were packed and the same header object; the token has 1+len(parts) dot-separated segments.",
  "every JSON header object and every list of byte parts", "unbounded structures: arbitrary header dictionaries, any number and content of parts",
  T+"JWT.pack", T+"JWT.unpack", T+"b64encode_item", T+"split_token")
p("re-packing an unpacked token is the identity",
  "For every token that unpack accepts, pack() without arguments returns the same token text, so forwarding a token never alters it.",
  "every accepted token, including non-canonical base64", "over all tokens an adversary may craft",
  T+"JWT.pack", T+"JWT.unpack")
p("split_token loses nothing",
  "split_token either raises BadSyntax (no dot) or returns segments without dots whose dot-join is the input.",
  "every byte string", "every number and position of dots", T+"split_token")
p("payload interpretation is a fixed function of header and bytes",
  "payload() returns the JSON value of part 1 when the header has no cty or a cty equal to 'jwt' in any case and the text is JSON, the decoded text when it is not JSON or cty differs, and the raw bytes when not UTF-8; in particular a text payload that happens to be JSON is not returned as text.",
  "every header and payload", "over all payload bytes",
  T+"JWT.payload", I+"as_unicode")
# --- JWS ----------------------------------------------------------------------------------------------
p("sign_compact then verify_compact succeeds",
  "A token produced by sign_compact with any supported algorithm and a matching key verifies with that key set and returns the payload view of the signed message.",
  "every message, key, kid/alg/use annotation, protected header and supported algorithm", "unbounded messages, keys and headers; ECDSA needs arithmetic facts for every nonce",
  S+"JWS.sign_compact", S+"JWS.verify_compact", S+"SIGNER_ALGS")
p("verify_compact soundness",
  "If verify_compact returns and the token's algorithm is not none, then some key among the supplied ones was selected whose signature check succeeded on exactly the first two segments of the presented token and the decoded third segment.",
  "every token, key list, instance state and option setting", "adversarial tokens; every control-flow path must be covered",
  S+"JWS.verify_compact_verbose", S+"JWx.pick_keys")
p("algorithm none needs opt-in",
  "Without allow_none, verify_compact never returns for a token whose header algorithm is null, missing or 'none' in any letter case.",
  "every token, key list and instance state", "the classic alg:none bypass lives in unusual spellings",
  S+"JWS.verify_compact_verbose")
p("no key-type confusion",
  "The key that verifies a token has the key type of the token's algorithm family: HS* only oct, RS*/PS* only RSA, ES* only EC; in particular an HS* token is never checked with an RSA or EC public key.",
  "every token, key list and state", "RS/HS confusion attacks are adversarial inputs",
  S+"JWx.pick_keys", S+"alg2keytype")
p("a token without a usable algorithm never verifies",
  "If the header has no 'alg' or an algorithm not in the supported table, verify_compact raises.",
  "every such token, key list and state", "over all unknown algorithm strings",
  S+"JWS.verify_compact_verbose", S+"SIGNER_ALGS")
p("expected algorithm is enforced",
  "If sigalg is given, or the instance already carries an algorithm, verify_compact (not none) returns only for tokens with that algorithm.",
  "every token, key list, state and expected algorithm", "negative property over all tokens",
  S+"JWS.verify_compact_verbose")
p("an instance is pinned to the first algorithm it checks",
  "Along any sequence of verify_compact calls on one instance, after one call got past the algorithm checks with algorithm A, no later call returns for a token with another (non-none) algorithm.",
  "every sequence of calls with arbitrary tokens and key lists", "histories of unbounded length",
  S+"JWS.verify_compact_verbose")
p("kid, use and alg annotations restrict key selection",
  "Every key that sign_compact or verify_compact uses matches the non-empty kid in force (the instance's, else the token header's), the algorithm annotation if it has one, and is annotated for signing if it has a use annotation.",
  "every key list, instance state and token", "every combination of annotations",
  S+"JWx.pick_keys")
p("key selection is a filter",
  "pick_keys returns, in order, exactly the supplied keys satisfying the documented conditions (type, kid, use, alg): it neither invents, reorders, duplicates nor drops keys.",
  "every key list, instance state, use and alg", "all lists of any length",
  S+"JWx.pick_keys")
p("signature bytes are bound to the token text",
  "For HMAC algorithms and one key, an accepted token's signature segment is the base64url text of the HMAC of the first two segments: no other token text with the same first two segments is accepted.",
  "every pair of tokens", "malleability concerns pairs of adversarial inputs",
  S+"HMACSigner.verify", I+"b64d")
p("tokens with the wrong number of segments are rejected",
  "verify_compact raises for every token that does not have exactly three segments.",
  "every token", "every segment count", S+"JWS.verify_compact_verbose", S+"JWSig")
p("sign_compact refuses to sign without a suitable key",
  "If the chosen algorithm is not none and no supplied key fits, sign_compact raises NoSuitableSigningKeys; it never falls back to an unsigned token.",
  "every key list, state and algorithm", "all combinations",
  S+"JWS.alg_keys", S+"JWS.sign_compact")
p("sign_compact header contents",
  "The header of a produced token is the caller's protected header overridden by the algorithm, by the key's kid when it has one, and by the instance's typ.",
  "every protected header, key and instance", "arbitrary dictionaries with colliding names",
  S+"JWS.alg_keys", S+"JWS.sign_compact")
p("verify_json requires every listed signature",
  "If verify_json returns, then every entry of 'signatures' (or the single flattened one) verified and all give the returned payload; at least one signature was verified.",
  "every JWS JSON text, key list and options", "all numbers of signatures including none",
  S+"JWS.verify_json")
p("sign_json then verify_json succeeds",
  "The JSON serialization produced by sign_json (general or flattened, any number of signatures) verifies with the same keys and returns the payload view.",
  "every message, header list and key list with a matching key", "unbounded header lists",
  S+"JWS.sign_json", S+"JWS.verify_json")
p("only caller-supplied keys are trusted",
  "When the caller supplies no keys and no jwk/jku/x5u, verification cannot succeed for a token signed with a key chosen by the sender.",
  "every token", "adversarial tokens embedding their own key",
  S+"JWS.verify_json", S+"JWx.__init__", S+"JWx._get_keys")
p("critical header extensions are honoured",
  "A token whose protected header has a 'crit' list naming an extension the library does not implement is rejected.",
  "every token with crit", "negative property over all tokens",
  S+"JWx.__init__", S+"JWS.verify_compact_verbose")
p("token recognition never crashes",
  "jws.factory(token) / JWS.is_jws(token) return a result (recognised or not) and do not raise, for any text.",
  "every text", "all malformed inputs", S+"JWS.is_jws", S+"JWS._is_compact_jws", S+"factory")
p("recognition agrees with the algorithm table",
  "For a dotted token, is_jws returns True exactly when the token unpacks and its header algorithm is null or one of the thirteen supported names.",
  "every token", "all header values", S+"JWS._is_compact_jws", S+"SIGNER_ALGS")
p("jku / x5u key retrieval works",
  "With a jku (or x5u) on the instance, the keys fetched from that URL are used for verification.",
  "every fetched key set", "depends on every shape of the fetched set",
  S+"JWx._get_keys", K+"KEYS.as_dict")
# --- symmetric building blocks ------------------------------------------------------------------------
p("AES key wrap round trip",
  "aes_unwrap_key(kek, aes_wrap_key(kek, key)) == key.",
  "every KEK and every key whose length is a multiple of 8 bytes, any length", "unbounded number of blocks; six rounds of index arithmetic",
  W+"aes_wrap_key", W+"aes_unwrap_key")
p("AES key unwrap integrity",
  "aes_unwrap_key accepts exactly the strings that aes_wrap_key produces: if it returns key for a wrapped string w (a positive multiple of 8 bytes), then w == aes_wrap_key(kek, key).",
  "every KEK and wrapped string", "over all forged strings", W+"aes_unwrap_key_and_iv", W+"aes_unwrap_key")
p("key wrap keeps the whole key",
  "aes_wrap_key never silently drops part of the key material.",
  "every key of any length", "lengths that are not multiples of 8", W+"aes_wrap_key")
p("PKCS#5 padding is inverted by trimming",
  "pkcs5trim(pkcs5pad(x)) == x; the padded length is the next positive multiple of 16.",
  "every byte string", "all lengths mod 16 and all final bytes", X+"pkcs5pad", X+"pkcs5trim")
p("PKCS#5 trimming rejects malformed padding",
  "pkcs5trim raises for every string that is not the padding of some string.",
  "every byte string", "negative property", X+"pkcs5trim")
p("AES-CBC-HMAC round trip",
  "aes_cbc_hmac_decrypt(key, iv, aad, *aes_cbc_hmac_encrypt(key, iv, aad, pt)) == pt.",
  "every plaintext, associated data, 16-byte IV and key of 32, 48 or 64 bytes", "all lengths", X+"aes_cbc_hmac_encrypt", X+"aes_cbc_hmac_decrypt")
p("AES-CBC-HMAC authenticates before decrypting",
  "aes_cbc_hmac_decrypt returns plaintext only if the tag equals the truncated HMAC, keyed with the first half of the key, of aad || iv || ciphertext || 64-bit bit length of aad; otherwise VerificationFailure and nothing is decrypted.",
  "every key, iv, aad, ciphertext and tag", "over all forgeries", X+"aes_cbc_hmac_decrypt")
p("the CBC-HMAC MAC input is unambiguous",
  "Two inputs (aad, iv, ciphertext) with 16-byte ivs give the same MAC input only if they are equal.",
  "every pair of inputs", "pairs of unbounded inputs", X+"aes_cbc_hmac_encrypt")
p("GF(2^128) multiplication is correct",
  "gf_2_128_mul(x, y) is the product of x and y as bit-reflected polynomials over GF(2) modulo 1+x+x^2+x^7+x^128, and stays below 2^128.",
  "all x, y < 2^128", "2^256 input pairs", G+"gf_2_128_mul")
p("GHASH equals its specification",
  "The table-driven internal hash equals the NIST definition: a Horner evaluation at the hash key of the zero-padded blocks of aad and text followed by the length block.",
  "every aad and text", "all lengths, all table indices", G+"AES_GCM.__ghash", G+"AES_GCM.__times_auth_key", G+"AES_GCM.change_key")
p("AES-GCM round trip",
  "decrypt(iv, *encrypt(iv, pt, aad), aad) == pt.",
  "every key, 96-bit iv, plaintext and aad", "all lengths", G+"AES_GCM.encrypt", G+"AES_GCM.decrypt")
p("AES-GCM authenticates before decrypting",
  "decrypt returns a plaintext only if the given tag is the one encrypt would compute for that iv, ciphertext and aad; otherwise InvalidTagException.",
  "every iv, ciphertext, tag and aad", "over all forgeries", G+"AES_GCM.decrypt")
p("one AES-GCM instance never encrypts twice under one IV",
  "Along any sequence of encrypt/decrypt/change_key calls on one instance, two successful encryptions between key changes use different IVs.",
  "every history of calls", "histories of unbounded length", G+"AES_GCM.encrypt")
p("AES-GCM uses the key it was given",
  "For A128GCM, A192GCM and A256GCM the block cipher is keyed with exactly the content encryption key bytes.",
  "every 16-, 24- and 32-byte key", "keys with leading zero bytes are rare in samples", G+"AES_GCM.change_key", E+"JWe.enc_setup")
p("JWE GCM tags are 16 bytes",
  "The authentication tag segment of a GCM token decodes to 16 bytes.",
  "every encryption", "one tag in 256 has a leading zero byte", E+"JWe.enc_setup")
# --- JWE ----------------------------------------------------------------------------------------------
p("content encryption round trip",
  "_decrypt(enc, key, ctxt, aad, iv, tag) returns msg for every (ctxt, tag) produced by enc_setup with the same enc, key, iv and aad.",
  "all six enc algorithms, every message, aad, CEK and IV of the right size", "all lengths", E+"JWe.enc_setup", E+"JWe._decrypt")
p("the protected header is authenticated",
  "In every produced token the associated data used for encryption is exactly the text of the token's first segment, and decryption uses the first segment of the presented token.",
  "every header and algorithm family", "arbitrary header dictionaries", E+"JWE_SYM.encrypt", E+"JWE_RSA.encrypt", E+"JWE_EC.encrypt")
p("JWE.encrypt then JWE.decrypt succeeds",
  "JWE(...).decrypt(JWE(msg, ...).encrypt(keys), keys) returns the message bytes for RSA, symmetric and ECDH-ES families when the matching key is first.",
  "every message, key, enc algorithm and random choice", "unbounded messages and keys; random CEK/IV/ephemeral keys",
  E+"JWE.encrypt", E+"JWE.decrypt")
p("any suitable key decrypts",
  "If one of several candidate keys is the right one, JWE.decrypt succeeds regardless of its position.",
  "every key list and token", "orderings of key lists", E+"JWE.decrypt")
p("JWE.decrypt honours the expected algorithm",
  "When alg is given, JWE.decrypt returns only for tokens with exactly this header algorithm.",
  "every token and key list", "negative property", E+"JWE.decrypt")
p("JWE_SYM and JWE.decrypt require five segments",
  "Decryption raises for tokens that do not have exactly five segments.",
  "every token", "every segment count", E+"JWE_SYM.decrypt", E+"JWE_RSA.decrypt")
p("compression is undone",
  "A message encrypted with zip=DEF is returned decompressed, for every algorithm family that accepts the option.",
  "every message", "unbounded messages", E+"JWE_RSA.encrypt", E+"JWE_RSA.decrypt", E+"JWE_SYM.decrypt")
p("generated content keys and IVs have the algorithm's sizes",
  "_generate_key_and_iv returns a CEK and IV of the size the enc algorithm prescribes, or exactly the caller's values, and raises for unknown algorithms.",
  "every algorithm name and every choice of cek and iv", "all strings", E+"JWe._generate_key_and_iv")
p("Concat KDF output",
  "concat_sha256(secret, n, info) has exactly ceil(n/8) bytes and is the prefix of H(1||secret||info) || H(2||secret||info) || ...; the loop terminates.",
  "every secret, info and length", "all lengths", X+"concat_sha256")
p("Concat KDF OtherInfo follows RFC 7518",
  "The OtherInfo hashed for ECDH-ES is length-prefixed algorithm id, apu and apv followed by the key length.",
  "every alg, apu, apv and length", "all inputs", X+"ecdh_derive_key")
p("both sides of ECDH-ES derive the same key",
  "The CEK (or KEK) the recipient derives from the token and its private key equals the one the sender derived from the recipient's public key and the ephemeral private key.",
  "every pair of private keys on a supported curve, every apu/apv", "2^256 keys", E+"JWE_EC.enc_setup", E+"JWE_EC.dec_setup", X+"ecdh_derive_key", C+"NISTEllipticCurve.dh_z")
# --- JWK ----------------------------------------------------------------------------------------------
p("RSA key serialization round trip",
  "keyrep(key.serialize(private=True)) has the same numbers n, e, d, p, q, dp, dq, di, qi and annotations as key.",
  "every RSA key", "unbounded integers", K+"RSAKey.serialize", K+"RSAKey.deserialize", K+"keyrep")
p("EC key serialization round trip",
  "keyrep(key.serialize(private)) has the same curve, x, y, (d when private) and annotations as key.",
  "every EC key", "unbounded integers; bytes/str handling", K+"ECKey.serialize", K+"ECKey.deserialize", K+"keyrep")
p("symmetric key serialization round trip",
  "keyrep(key.serialize()) holds the same secret bytes and annotations.",
  "every byte string", "all lengths", K+"SYMKey.serialize", K+"SYMKey.__init__", K+"keyrep")
p("public serialization leaks no private RSA/EC numbers",
  "serialize() and KEYS.dump_jwks() output for RSA and EC keys is a function of the public part only: keys that differ only in private numbers serialize identically.",
  "every pair of keys with equal public part", "non-interference is a two-run property", K+"RSAKey.serialize", K+"ECKey.serialize", K+"KEYS.dump_jwks")
p("dumping a key set reveals no secrets",
  "KEYS.dump_jwks() never reveals secret key material.",
  "every key set", "every key type", K+"KEYS.dump_jwks", K+"SYMKey.serialize")
p("make_public_copy drops private parts",
  "make_public_copy(key) carries no private key material for any key class.",
  "every key", "every key class", K+"make_public_copy")
p("thumbprint is the RFC 7638 thumbprint",
  "thumbprint(h) hashes the lexicographically ordered required members (RSA: e,kty,n; EC: crv,kty,x,y; oct: k,kty) with no whitespace and depends on nothing else.",
  "every key", "all keys; independence of annotations", K+"Key.thumbprint")
p("key equality is an equivalence",
  "== on keys of one class is reflexive, symmetric and transitive and holds exactly when all public members are equal.",
  "all keys", "pairs and triples of keys", K+"Key.__eq__")
p("equal keys have equal hashes and hashing does not change equality",
  "If k1 == k2 then hash(k1) == hash(k2); computing a hash does not change whether two keys are equal.",
  "all pairs of keys, any order of hash calls", "hidden mutation only shows in histories", K+"Key.__hash__", K+"Key.add_kid")
p("key set container behaves like a list",
  "After any sequence of append/load operations the set iterates the keys in insertion order; len, kids, by_kid, [type], key_types agree with that list.",
  "every sequence of operations", "histories", K+"KEYS")
p("as_dict partitions the key set by type",
  "as_dict maps each (normalised) type to exactly the keys of that type, in order, and every key occurs exactly once.",
  "every key set", "all lists", K+"KEYS.as_dict")
p("symmetric encryption keys have the algorithm's length",
  "SYMKey.encryption_key(alg) returns ALG2KEYLEN[alg] bytes determined by key and alg, and raises KeyError for other algorithms.",
  "every key and algorithm name", "all strings", K+"SYMKey.encryption_key")
# --- elliptic curves ----------------------------------------------------------------------------------
p("modular inverse",
  "inv(a, n) is non-negative and inv(a, n)*a == 1 (mod n) whenever gcd(a, n) == 1; the Euclidean loop terminates.",
  "all integers a and n > 1", "unbounded integers", L+"inv", L+"euclid")
p("signed binary expansion represents its argument",
  "_signed_bin(n) is a most-significant-first list of digits in {-1,0,1} whose value is n, and the loop terminates.",
  "every n >= 0", "unbounded integers", L+"_signed_bin", L+"_gbd")
p("Jacobian addition and doubling implement the curve group",
  "addf and doublef agree with affine addition (add) on the represented points for all operands, including equal, opposite and neutral ones.",
  "every prime n > 3, nonsingular curve and points on it", "all field elements; exceptional cases", L+"addf", L+"doublef", L+"add")
p("the affine addition is an abelian group",
  "Point addition on the curve is associative, commutative, has neutral element None and inverse neg.",
  "every prime n > 3, nonsingular curve, and points", "triples of points", L+"add", L+"neg")
p("scalar multiplication",
  "mulp(P, c) is P added to itself c times.",
  "every scalar c >= 0 and every point", "unbounded scalars", L+"mulp", L+"mulf")
p("double scalar multiplication",
  "muladdp(P, c1, Q, c2) is c1*P + c2*Q.",
  "every pair of scalars and points", "unbounded scalars; joint digit table", L+"muladdp", L+"muladdf")
p("the built-in NIST curves are sound",
  "For P-256, P-384 and P-521 the tabulated p and order N are prime, the curve is nonsingular, the base point is on it and has order exactly N; the names P-256, P-384 and P-521 select the constants of FIPS 186-4 (p, N, a = -3, b, G) and every other name raises ECCException.",
  "the three curves (number-theoretic facts quantify over all divisors / multiples)", "primality and order are universal statements", V+"DOMAINS", V+"get_curve")
p("generated EC key pairs are valid",
  "key_pair returns a private scalar in [1, N-1] and a public point on the curve, different from the neutral element, equal to private*G.",
  "every outcome of the random generator", "2^256 outcomes", C+"NISTEllipticCurve.key_pair", C+"NISTEllipticCurve.public_key_for")
p("ECDH agreement",
  "dh_z(a, public_key_for(b)) == dh_z(b, public_key_for(a)).",
  "all private keys a, b in [1, N-1] on the three curves", "2^512 pairs", C+"NISTEllipticCurve.dh_z")
p("ECDSA signatures verify",
  "verify(h, sign(h, d), public_key_for(d)) is True whenever sign returns.",
  "every hash value, private key in [1,N-1] and nonce", "2^512 combinations", C+"NISTEllipticCurve.sign", C+"NISTEllipticCurve.verify")
p("ECDSA verification is the textbook check",
  "For a public key on the curve, verify returns True exactly when 0<r,s<N and the x coordinate of (e/s)G + (r/s)Q is r mod N, and otherwise returns False.",
  "every hash, signature bytes and public point", "over all forgeries", C+"NISTEllipticCurve.verify")
p("ECDSA hash truncation follows FIPS 186",
  "The integer signed is the hash (mod N) when the hash is not longer than N.",
  "every hash value", "one SHA-256 value in 2^32 exceeds the P-256 order", C+"NISTEllipticCurve.sign", C+"NISTEllipticCurve.verify")
p("ECDSA signing terminates",
  "sign returns for every hash, key and nonce source.",
  "every input and random source", "non-termination needs s = 0 or r = 0", C+"NISTEllipticCurve._sign_loop")
p("ECDSA signature encoding",
  "A signature has exactly 2*bytes octets and verify only accepts signatures of that length.",
  "every signature", "all lengths", C+"NISTEllipticCurve.sign", C+"NISTEllipticCurve.verify")
p("points off the curve are rejected",
  "ECDH and verification reject public keys that are not points on the curve.",
  "every pair of integers", "negative property", C+"NISTEllipticCurve.dh_z", K+"ECKey.deserialize")
p("point compression is invertible",
  "uncompress(compress(P)) == P.",
  "every point", "all points", C+"NISTEllipticCurve.compress", C+"NISTEllipticCurve.uncompress", L+"y_from_x")
# --- PBKDF2 -------------------------------------------------------------------------------------------
p("PBKDF2 reads form one stream",
  "The concatenation of any sequence of read(n) results is the prefix of one fixed byte stream determined by passphrase, salt and iteration count.",
  "every sequence of read sizes", "histories", B+"PBKDF2.read")
p("PBKDF2 block function",
  "Each block is the XOR of the iterated MACs U_1..U_c as in PKCS#5.",
  "every iteration count and block index", "unbounded iteration counts", B+"PBKDF2.__f")
p("PBKDF2.crypt verifies its own output",
  "crypt(word, crypt(word, salt, iterations)) == crypt(word, salt, iterations).",
  "every word, admissible salt and iteration count", "all salts and counts", B+"crypt")
p("PBKDF2 can be constructed on Python 3",
  "PBKDF2(passphrase, salt) returns an object for every text or bytes passphrase.",
  "every passphrase and salt", "all inputs", B+"PBKDF2._setup")
EXTRA = os.path.join(os.path.dirname(__file__), "extra_properties.py")
if os.path.exists(EXTRA):
    exec(open(EXTRA).read())
with open("/verif/properties.jsonl", "w") as f:
    for x in P:
        f.write(json.dumps(x) + "\n")
for x in P: print(x["id"], x["title"])
