# Properties added while the model grew (C92...).
p("scalar multiplication on the built-in curves",
  "On P-256, P-384 and P-521 mulp(P, c) is exactly c*P and muladdp(P, c, Q, d) is exactly c*P + d*Q, and results stay on the curve.",
  "every point of the three curves and all scalars >= 0", "all points and scalars", L+"mulp", L+"muladdp")
p("ECDSA malleability",
  "Whenever verify accepts (r, s) for a public key d*G it also accepts (r, N - s): an accepted signature does not identify its bytes.",
  "every hash, key and accepted signature", "all signatures", C+"NISTEllipticCurve.verify")
p("the ECDH shared secret",
  "For a point Q of the curve dh_z(d, Q) is the x coordinate of d*Q as exactly ceil(bits/8) octets, and raises TypeError exactly when d*Q is the neutral element.",
  "every scalar d >= 0 and point of the curve", "all points", C+"NISTEllipticCurve.dh_z")
p("what PKCS#5 trimming accepts",
  "pkcs5trim(x) returns exactly when the last octet n of x is at most 16; it then returns x without its last n octets (the empty string for n = 0). Empty input raises struct.error, a larger last octet Exception.",
  "every byte string", "all byte strings", X+"pkcs5trim")
p("AES_GCM.encrypt is NIST GCM",
  "The ciphertext and the tag are those of SP 800-38D for the 96-bit IV: counter mode from IV||2 and GHASH(H, A, C) xor E(K, IV||1).",
  "every object history, iv, plaintext and aad", "unbounded lengths; table-driven code against the definition", G+"AES_GCM.encrypt")
p("AES_GCM refuses an immediate IV repetition",
  "After a successful encryption under an IV the next call of encrypt with the same IV raises InvalidInputException and leaves the object unchanged.",
  "every object state and every pair of messages", "all states", G+"AES_GCM.encrypt")
p("Concat KDF OtherInfo is injective for a fixed algorithm",
  "For one algorithm id, two calls hash the same OtherInfo only if apu, apv and the key length are equal.",
  "every pair of (apu, apv, length)", "pairs of unbounded byte strings", X+"ecdh_derive_key")
p("aes_unwrap_key fails only with ValueError",
  "For every input of at least 8 octets aes_unwrap_key returns a key or raises ValueError.",
  "every KEK and wrapped string of at least 8 octets", "adversarial inputs", W+"aes_unwrap_key")
p("aes_unwrap_key ignores a short tail",
  "Appending up to seven octets to a wrapped key does not change the result of unwrapping: the encrypted-key segment is malleable.",
  "every KEK, wrapped string and tail", "all inputs", W+"aes_unwrap_key_and_iv")
p("padded key wrap round trip",
  "aes_unwrap_key_withpad(kek, aes_wrap_key_withpad(kek, key)) == key.",
  "every KEK and key", "all key lengths", W+"aes_wrap_key_withpad", W+"aes_unwrap_key_withpad")
p("container round trip for non-empty part lists",
  "For a non-empty list of byte parts and a non-empty header object, given explicitly or stored on the instance, pack then unpack (from text or bytes) gives the header object (byte-string values decoded to text), the same parts, 1+len(parts) segments, and packing the result again gives the same token.",
  "every instance, JSON header object and non-empty list of byte parts", "unbounded structures", T+"JWT.pack", T+"JWT.unpack", T+"b2s_conv")
p("payload of non-UTF-8 bytes and totality of payload()",
  "With an object header whose cty is absent or text, payload() never raises; for bytes that are not UTF-8 it returns the JSON value json.loads detects in them when JSON is expected, else the raw bytes.",
  "every header object and payload", "all byte strings", T+"JWT.payload")
p("unpack fails only with BadSyntax or ValueError",
  "For any text or byte string, JWT.unpack returns or raises BadSyntax or a subclass of ValueError, nothing else.",
  "every text and byte string", "adversarial inputs; every branch of base64, UTF-8 and JSON decoding", T+"JWT.unpack", I+"b64d")
p("unpack decodes segment by segment",
  "An accepted token has at least two segments; b64part are the dot-separated segments of the token, part the base64url decoding of each, headers the JSON value of the first.",
  "every accepted token", "all tokens", T+"JWT.unpack")
p("dumping and loading a key set",
  "load_jwks(dump_jwks()) gives, key by key and in order, an RSA key with the same n, e and annotations (no private numbers), an EC key with the same curve, point and annotations (no private value), a symmetric key with the same secret and annotations.",
  "every list of RSA, EC and non-empty symmetric keys with text annotations", "unbounded lists and integers; JSON, base64 and key parsing together", K+"KEYS.dump_jwks", K+"KEYS.load_jwks", K+"keyrep")
p("key_from_jwk_dict restores EC private keys",
  "key_from_jwk_dict(key.serialize(private=True), private=True) has the numbers x, y, d, the curve and the kid of key.",
  "every EC key with positive coordinates, private value and a kid", "unbounded integers", K+"key_from_jwk_dict", K+"ECKey.serialize")
p("the public copy of an RSA key is usable",
  "encryption_key() of make_public_copy(key) is the RSA public key (n, e).",
  "every RSA key", "unbounded integers", K+"make_public_copy", K+"RSAKey.encryption_key")
p("x5t is checked against the certificate",
  "An RSA key given by x5c and x5t without n is constructed only if x5t is the base64url SHA-1 digest of the first certificate, and then has that certificate's n and e.",
  "every certificate chain and thumbprint", "all byte strings", K+"RSAKey.deserialize")
p("keyrep cannot load a certificate JWK with x5t",
  "keyrep of {kty: RSA, x5c: [cert], x5t: t} with decodable cert and non-empty t raises AttributeError, even if t is the right thumbprint.",
  "every certificate and thumbprint", "all strings", K+"keyrep", K+"RSAKey.deserialize")
p("hashes are stable",
  "After hash(key) returned a non-zero h, hashing the key again returns h and changes nothing.",
  "every key", "hidden state", K+"Key.__hash__")
p("a token without a usable algorithm is refused",
  "A token whose alg is missing or is not in the algorithm table is refused by verify_compact, unless allow_none is set and alg is null or spells none.",
  "every instance state, token and key list", "all tokens", S+"JWS.verify_compact")
p("a token without alg disables the instance",
  "After verify_compact was called on a three-part token without alg, no later call on the same instance verifies any token with a key.",
  "every instance, every sequence of later calls", "hidden state, unbounded call sequences", S+"JWS.verify_compact")
p("the verifying key has the right kid and alg",
  "The key with which verify_compact accepts a token matches the kid in force (instance, else header) when both are set, and its alg, if set, is the token's.",
  "every accepted token", "all key sets", S+"JWS.verify_compact")
p("the signing key fits and signs the token text",
  "A compact token made by sign_compact with an algorithm other than none ends in the signature, by an offered key whose type, kid, use and alg annotations fit, of the text before the last dot.",
  "every successful sign_compact", "all keys and headers", S+"JWS.sign_compact")
p("HMAC signatures are unique as octets",
  "Two accepted tokens with the same header and payload segments under one symmetric key have the same signature octets, namely the HMAC of header.payload.",
  "every pair of accepted tokens", "pairs of adversarial tokens", S+"HMACSigner.verify")
p("JSON verification checks every entry",
  "If verify_json returns, every listed signature was verified over its own header and the shared payload, and all non-null payload views are equal to the result.",
  "every JSON serialization and key list", "unbounded signature lists", S+"JWS.verify_json")
p("without keys only the instance's key is trusted",
  "Called without keys, verify_compact accepts a signed token only with the key object of the instance; if there is none every call without allow_none raises, also with jku or x5u set.",
  "every instance and token", "all tokens", S+"JWS.verify_compact")
p("a lower-case ec JWK lets anyone forge signatures",
  "The key keyrep makes of a JWK with kty \"ec\" and no \"key\" member verifies ES256/384/512 tokens that can be computed without any secret, for any header and payload (unless the digest is 0 modulo the order).",
  "every such JWK, header and payload", "needs elliptic curve reasoning", K+"keyrep", S+"DSASigner.verify")
p("how recognition fails",
  "is_jws of a text returns a boolean or raises AttributeError or TypeError; it returns one if the text is a JSON object, or not JSON and its header an object with a hashable alg.",
  "every text", "adversarial texts", S+"JWS.is_jws")
p("no text is both JSON and an unpackable token",
  "A text that JWT.unpack accepts is not JSON, so recognition always reads it as a compact serialization.",
  "every text", "all texts", S+"JWS.is_jws", T+"JWT.unpack")
p("JSON signatures verify",
  "A JSON or flattened serialization made by sign_json from a text payload, with at least one header pair and no kid outside the protected header, verifies with the same keys and returns the payload.",
  "every payload, any number of usable header pairs, working keys", "unbounded structures; JSON, base64 and signatures together", S+"JWS.sign_json", S+"JWS.verify_json")
p("compact signatures verify",
  "A token made by sign_compact is accepted by verify_compact with the same keys and gives the payload, provided the protected header has no kid of its own when a key has none.",
  "every message, header and list of working keys", "unbounded structures", S+"JWS.sign_compact", S+"JWS.verify_compact")
p("which keys work",
  "What HMAC, RSA and ECDSA signers sign with a key they verify with it: every octet secret, every RSA key obeying the RSA laws, every EC key with private value d and public point d*G without a coordinate zero.",
  "every key and message", "elliptic curve group law, unbounded integers", S+"HMACSigner.sign", S+"RSASigner.sign", S+"DSASigner.sign")
p("the form of a GCM tag segment",
  "The tag segment of a GCM token is the base64url form of the 128-bit tag of SP 800-38D as an integer in its shortest big-endian form: one to sixteen octets, a leading zero octet only for the tag 0.",
  "every successful encryption with a wrapped key and a header below 2^61 octets; every call of enc_setup", "one tag in 256 is short", E+"JWe.enc_setup")
p("round trip with a wrapped key",
  "Whatever JWE.encrypt produced with A128KW, A192KW or A256KW and an octet key, JWE.decrypt returns the UTF-8 of the message if the first suitable key offered is that key.",
  "every text message, header of JSON values, enc, key list and random choice", "unbounded messages and keys", E+"JWE_SYM.encrypt", E+"JWE_SYM.decrypt", E+"JWE.encrypt", E+"JWE.decrypt")
p("round trip with RSA",
  "Whatever JWE.encrypt produced with RSA1_5, RSA-OAEP or RSA-OAEP-256, JWE.decrypt returns the octets of the message, given the content key or, when the content key was generated, the private key as first suitable key.",
  "every message, header of JSON values, enc, key list and random choice", "unbounded messages and keys", E+"JWE_RSA.encrypt", E+"JWE_RSA.decrypt")
p("round trip with ECDH-ES",
  "Whatever JWE.encrypt produced with ECDH-ES, alone or with key wrapping, for an EC key on P-256, P-384 or P-521, JWE.decrypt returns the octets of the message if the first suitable key has the private value of that key.",
  "every message, key, ephemeral key, apu, apv and random choice", "2^256 keys, unbounded messages", E+"JWE_EC.encrypt", E+"JWE_EC.decrypt", E+"JWE_EC.enc_setup", E+"JWE_EC.dec_setup")
p("encryption succeeds",
  "JWE.encrypt returns a token for every message of at most 2^36 octets (text when the key is wrapped), enc, algorithm and suitable key with its private part (EC), with JSON header values and a content key and IV that are generated or of the right size.",
  "every message, key, header and random choice in these bounds", "absence of exceptions on all inputs", E+"JWE.encrypt")
p("how many segments are needed",
  "A token that JWE.decrypt accepts has at least five segments, exactly five if its key is wrapped.",
  "every instance, token and key list", "every segment count", E+"JWE.decrypt", E+"JWE_SYM.decrypt")
p("segments after the fifth are ignored",
  "If JWE.decrypt accepts an RSA or ECDH-ES token it returns the same for the token with any further segment appended: nothing authenticates the number of segments.",
  "every accepted token and octets", "all tokens", E+"JWE_RSA.decrypt", E+"JWE_EC.decrypt")
p("zip is ignored unless RSA is used",
  "For an accepted token with another algorithm than RSA the result is the decrypted content itself, also if the header says zip=DEF.",
  "every accepted token", "all tokens", E+"JWE_SYM.decrypt", E+"JWE_EC.decrypt")
p("only the six content encryption algorithms are used",
  "Every token JWE.encrypt produces and every token JWE.decrypt accepts has one of the six enc names in its header; enc_setup returns for no other name.",
  "every token, key list and header", "all names", E+"JWe.enc_setup", E+"JWe._decrypt")
p("RSA keys with bad padding are passed over",
  "If a key decrypts an RSA1_5 token it also does so after keys under which the padding is bad, and before any other keys, unless a random sentinel happens to be the content key.",
  "every token and key list", "orderings of key lists", E+"JWE.decrypt", E+"RSAEncrypter.decrypt")
p("the first suitable key decides",
  "For wrapped keys and ECDH-ES, decryption with a list of keys returns exactly what it returns with the first suitable key alone.",
  "every token and key list", "orderings of key lists", E+"JWE.decrypt")
p("ECDH-ES needs the recipient's private key to encrypt",
  "JWE.encrypt with ECDH-ES never returns for an EC key without private value.",
  "every such key and message", "all keys", E+"JWE.encrypt", K+"ECKey.get_key")
p("ECDH-ES tokens need apu and apv",
  "An accepted token whose alg begins with ECDH-ES has text members apu and apv in its header that are base64url; RFC 7518 makes both optional.",
  "every accepted token", "all tokens", E+"JWE_EC.dec_setup", X+"ecdh_derive_key")
p("an epk must be a key object",
  "JWE.encrypt with ECDH-ES never returns if epk was given as anything else than a key object.",
  "every other value", "all values", E+"JWE_EC.enc_setup")
p("wrapped keys encrypt text only",
  "If JWE.encrypt with a wrapped key returns, the message is a text.",
  "every message", "all values", E+"JWE_SYM.encrypt")
p("ECDH-ES with key wrapping reuses a content key",
  "If the instance holds a content key, as RSA encryption and decryption leave it, enc_setup of ECDH-ES with key wrapping uses it again.",
  "every instance and key", "hidden state", E+"JWE_EC.enc_setup", E+"JWE.encrypt")
p("ECDH-ES ignores the caller's content key and IV",
  "JWE.encrypt with ECDH-ES gives the same result for all arguments cek and iv.",
  "every instance, cek and iv", "all values", E+"JWE.encrypt")
p("recognition of encrypted tokens",
  "is_jwe is true exactly if typ is a text spelling jwe in any case, or typ is absent or a string and alg and enc are supported names.",
  "every header object", "all headers", E+"JWEnc.is_jwe")
p("RSAEncrypter round trip",
  "RSAEncrypter.decrypt undoes encrypt with the same padding and with_digest, for PKCS#1 v1.5 without digest unless the sentinel is the message.",
  "every message, key and randomness", "all messages", E+"RSAEncrypter.encrypt", E+"RSAEncrypter.decrypt")
p("a given content key is not sent",
  "If the caller gives a content key, an RSA token has an empty second segment: the recipient cannot decrypt it with the RSA key.",
  "every content key and message", "all values", E+"JWE_RSA.encrypt")
p("bad PKCS#1 v1.5 padding is reported as DecryptionFailed",
  "RSAEncrypter.decrypt without digest raises DecryptionFailed whenever the padding is bad.",
  "every key, ciphertext and sentinel", "all ciphertexts", E+"RSAEncrypter.decrypt")
p("format of crypt results",
  "What crypt returns is $p5k2$, the count in lower-case hexadecimal (nothing for 400), $, a salt of admissible characters, $ and 32 base64 characters; with one iteration it returns for every ASCII word and admissible salt.",
  "every word, salt and count", "all salts and counts", B+"crypt", B+"b64encode")
p("crypt never returns on Python 3",
  "On Python 3 crypt raises for all arguments: the encoded salt is no longer a str.",
  "every word, salt and count", "all arguments", B+"crypt")
p("generated salts",
  "_makesalt returns eight admissible salt characters on Python 2, and crypt without salt is crypt with such a salt.",
  "every random choice", "all random choices", B+"_makesalt", B+"crypt")
p("PBKDF2.read at the end of the stream",
  "A read returns exactly n octets, or raises OverflowError and changes nothing if that would pass 20*(2^32-1) octets; no other exception occurs; a closed object raises ValueError.",
  "every state reachable by reads and every n", "histories of 2^36 octets", B+"PBKDF2.read", B+"PBKDF2.close")
p("JWT pack/unpack round trip for parts of every kind",
  "A token packed from a header object and a non-empty list of byte strings, texts, null, lists and dictionaries unpacks to that header and to segments from which every part is found again: bytes as they are, texts by UTF-8, the others by JSON. A list with a number is never packed.",
  "every header and list of parts", "all values and nestings", T+"JWT.pack", T+"JWT.unpack", T+"b64encode_item")
p("the JWT constructor",
  "JWT(**headers) keeps the headers, except that a missing or false alg is recorded as null; its single segment decodes to the JSON text of these headers, and pack without parts returns that segment. It succeeds for every header object of JSON values.",
  "every header object", "all header objects", T+"JWT.__init__", T+"JWT.pack")
p("AES key wrap is that of RFC 3394",
  "aes_wrap_key of a key of n > 0 blocks of 64 bits is the value defined in RFC 3394 section 2.2.1, and aes_unwrap_key returns a key exactly for that value.",
  "every key encryption key and every key of whole 64-bit blocks", "one test vector cannot show it for all keys", W+"aes_wrap_key", W+"aes_unwrap_key")
p("left_hash for every signature algorithm",
  "left_hash(msg, alg) is the base64url text of the left half of the SHA-2 digest of msg, with the hash size named by alg, for every signature algorithm.",
  "every text or byte string and algorithm name", "all messages; a missing branch returns None silently", S+"left_hash")
p("mpint and mp2bin",
  "mpint prefixes an integer with its length, and mp2bin(mpint(b)) = b.",
  "every byte string shorter than 2^32 - 1 octets", "all byte strings", S+"mpint", S+"mp2bin")
p("comparison of raw keys",
  "rsa_eq compares modulus and exponent; key_eq is true for equal texts and for equal RSA keys and false for everything else.",
  "every pair of raw keys", "pairs of keys", K+"rsa_eq", K+"key_eq")
p("intarr2str",
  "intarr2str(arr) is the text with exactly these code points, and raises exactly if one of the numbers is no code point.",
  "every list of integers", "all lists", K+"intarr2str")
p("key objects from raw keys",
  "keyitems2keyreps makes one key object per raw key, in order: of the class named by the type in any case, with the numbers or the secret of the raw key, and a plain Key for any other type.",
  "every list of types with raw keys", "unbounded lists", K+"keyitems2keyreps")
p("loading a key into an RSAKey object",
  "After load_key(key) an RSAKey has exactly the numbers of key.",
  "every RSAKey object and RSA key", "state left by an earlier key", K+"RSAKey.load_key")
p("certificate in base64 text",
  "der_cert2rsa returns the key of a certificate given as base64 text, with any characters outside the alphabet in between.",
  "every certificate and every way of breaking its text", "all lengths: the padding matters", K+"der_cert2rsa")
p("certificate in a PEM file",
  "pem_cert2rsa returns the key of the certificate between the first and the last line of the file, for all line lengths, line ends and empty lines, if RSA.importKey accepts the file.",
  "every certificate, division into lines and pair of framing lines", "all line lengths", K+"pem_cert2rsa")
p("load_x509_cert never raises",
  "load_x509_cert returns an empty list exactly if the certificate cannot be fetched or imported; otherwise it returns the one key imported from or remembered for exactly the fetched text, and remembers it.",
  "every URL, server and dictionary of seen keys", "all server answers", K+"load_x509_cert")
p("_hash_input",
  "_hash_input concatenates round, key, length, algorithm, the party values with their lengths, and label.",
  "every argument", "all values", E+"_hash_input", E+"party_value", E+"int2bigendian")
p("keysize",
  "keysize is the decimal number after HS or CS, the number of the three digits after A, and 0 for a name with another beginning.",
  "every text", "all texts", E+"keysize")
p("mapping methods of JWx",
  "What is stored under a name is found under this name as item, attribute and member, and nothing else changes; a missing name is a KeyError or AttributeError; dump_header shows exactly the stored parameters named in args.",
  "every instance, name and value", "all states", S+"JWx.__getitem__", S+"JWx.__setitem__", S+"JWx.__getattr__", S+"JWx.__contains__", S+"JWx.dump_header")
p("JWx.headers: precedence",
  "headers(extra) has exactly the parameters of extra and the true ones of the instance that are named in args; extra wins, except for jwk, which is serialized without private parts; a kid of the instance that is no text raises HeaderError.",
  "every instance and extra header", "all combinations", S+"JWx.headers")
p("JWx._decode",
  "_decode(b64e(m)) is m, and the JSON value of m exactly if cty is JWT.",
  "every instance and byte string", "all byte strings", S+"JWx._decode")
p("JWSig.valid",
  "An unpacked token is valid as a JWS exactly if it contains two dots.",
  "every token that unpacks", "all tokens", S+"JWSig.valid", S+"JWSig.__len__")
p("the signed binary form is sparse and least",
  "Of two neighbouring digits of _signed_bin(n) one is zero, and no other list of digits -1, 0, 1 with the value n has fewer non-zero digits.",
  "every n >= 0 and every other signed binary form of it", "all pairs of forms", L+"_signed_bin", L+"_gbd")
U="script/jwkutil.py:"
p("assign groups keys by type",
  "assign returns one entry per type that occurs, holding the keys of this type in their order.",
  "every list of pairs of a type and a key", "all lists", U+"assign", "script/jwenc.py:assign", "script/jwdecrypt.py:assign")
p("signing succeeds",
  "sign_compact returns a token whenever the first suitable key can sign and header and payload are encodable; the token is exactly the header, the payload and the signature over the first two, each in base64url.",
  "every instance, key list, protected header and signer that signs every input", "all keys and payloads", S+"JWS.sign_compact", S+"JWx.alg2keytype", S+"JWx.pick_keys")
p("jwkutil: sign, then verify",
  "jwkutil -s -k secret -a HS256/HS384/HS512 [-t typ] msg prints an ASCII token; jwkutil -v -k secret with this token prints the JSON value of msg, or msg itself if it is not JSON.",
  "every non-empty secret, message other than -, and type that UTF-8 can encode", "all secrets and messages", U+"sign", U+"verify")
p("jwkutil -s without -a signs nothing",
  "Whatever jwkutil -s prints without an algorithm, and whatever the keys, it is a token of two segments followed by an empty signature.",
  "every combination of the other options, files and keys", "all options", U+"sign", S+"JWS.sign_compact")
p("jwkutil -d prints nothing",
  "jwkutil -d (without -s and -e) never prints anything: the result of decrypt is taken apart as a pair.",
  "every combination of the other options, files and keys", "negative property", U+"decrypt")
p("gen_symkey",
  "gen_symkey prints a JWK set that loads to one key of type oct with the kid given, whose secret is the requested number of drawn capital letters and digits.",
  "every positive length, kid and sequence of random indices", "all random draws", "script/gen_symkey.py:rndstr", "script/gen_symkey.py:main")
p("gen_symkey, jwkutil and jwdecrypt together",
  "With a key set printed by gen_symkey: what jwkutil -s prints, jwkutil -v verifies and reports; what jwkutil -s -e prints, jwdecrypt decrypts to the token of jwkutil -s.",
  "every such key set, HMAC algorithm, key wrap algorithm, content encryption and message", "all keys and messages", U+"sign", U+"verify", U+"encrypt", "script/jwdecrypt.py:decrypt", "script/gen_symkey.py:main")
p("jwenc, then jwdecrypt",
  "With a key set printed by gen_symkey: what jwenc -J prints, jwdecrypt -J decrypts to the octets of the message.",
  "every such key set, key wrap algorithm, content encryption and message", "all keys and messages", "script/jwenc.py:encrypt", "script/jwdecrypt.py:decrypt")
p("peek tells JWS from JWE",
  "A token that verify accepts (alg none not allowed) is shown as jws with header and payload octets, and a token that decrypt accepts with keys of the right class is shown as jwe, if typ is absent or a text other than JWE. Any token with typ JWE in some letter case is shown as jwe, with a typ that is no text there is an AttributeError.",
  "every token, key list and header", "all tokens", "script/peek.py", E+"factory", S+"factory")
p("jwk_create never stores a key pair",
  "create_and_store_rsa_key_pair raises TypeError for every key, leaves an empty file name.key, and touches no other file.",
  "every file name, key and content of the directory", "negative property", "script/jwk_create.py:create_and_store_rsa_key_pair")
p("jwenc -X never encrypts",
  "jwenc with a certificate URL (and without -j and -J) prints no token, whatever the certificate and the other options.",
  "every certificate and option", "negative property", "script/jwenc.py", K+"load_x509_cert")
p("the kind of key an algorithm asks for",
  "alg2keytype maps the empty text and the word none in any letter case to none, texts that begin with RS or PS to RSA, with HS or A to oct, with ES or ECDH-ES to EC, and every other text to None; a false value that is no text gives none, any other value raises.",
  "every algorithm value", "all texts", S+"alg2keytype")
p("recognition of every text",
  "is_jws and factory recognise a text exactly if it is a JSON object with payload and signatures or signature, or unpacks to a header with an alg of the table or null; whatever sign_json returns, in general or flattened form, is recognised.",
  "every text; every instance, key list and header list fit for signing", "all texts", S+"JWS.is_jws", S+"JWS._is_json_serialized_jws", S+"factory", S+"JWS.sign_json")
p("the key of ECDH-ES as a formula",
  "The content key (ECDH-ES) or wrapping key (ECDH-ES+AxxxKW) is the first n bits of SHA-256(1, z, info), SHA-256(2, z, info), where n is 128, 192, 256, 256, 384 or 512 by enc, or 128, 192, 256 by alg, z is the shared coordinate, and info is the name, apu and apv with their lengths, and n, each number in four octets; with the receiver as with the sender.",
  "every token or instance, key and random draw for which the setup succeeds", "all keys and parties", E+"JWE_EC.enc_setup", E+"JWE_EC.dec_setup", X+"ecdh_derive_key", X+"concat_sha256")
p("the AlgorithmID of ECDH-ES with key wrapping",
  "The wrapping key of ECDH-ES+A128KW, +A192KW and +A256KW is derived from the value of alg as AlgorithmID (RFC 7518, section 4.6.2).",
  "every pair of parties", "all parties", E+"JWE_EC.enc_setup", E+"JWE_EC.dec_setup")
p("the scheme of each RSA algorithm",
  "JWE_RSA encrypts and decrypts the content key with PKCS#1 v1.5 for RSA1_5, OAEP with SHA-1 for RSA-OAEP and OAEP with SHA-256 for RSA-OAEP-256, and the encrypted key is the second segment of the token.",
  "every token, key and random draw", "all keys", E+"JWE_RSA.encrypt", E+"JWE_RSA.decrypt")
p("JWE_SYM used by itself",
  "JWE_SYM.decrypt returns a message exactly if a key or content key is given, the token has five segments, the wrapped key (if needed) unwraps and the content decrypts; the message is decompressed exactly if the instance itself has zip DEF, whatever the header says.",
  "every instance, token, key and content key", "all tokens", E+"JWE_SYM.decrypt")
p("messages in files and on the standard input",
  "A message read from a file (-f of jwenc and jwdecrypt, with the ends of line characters around it removed) or, for jwkutil, from the file named by the option or from the standard input (-, with white space around it removed) gives the same result as the same message on the command line.",
  "every option, file and message", "all files", U+"sign", U+"verify", U+"encrypt", "script/jwenc.py", "script/jwdecrypt.py")
p("a token piped into jwkutil is refused",
  "The output of one run of jwkutil, with the end of line print adds, given to jwkutil -v or -d on its standard input, is never verified and never decrypted: the line end is not removed.",
  "every token of characters outside the line end, key and option", "negative property", U+"verify", U+"decrypt")
p("the text of a key shows its private numbers",
  "str() of an RSA key contains every number that is set, d, p and q included, str() of an EC key its d, and str() of a symmetric key its secret, each as base64url text after its name in quotes; the text of a key set depends on public parts only; keys with different dictionaries have different texts.",
  "every well-formed key; every two lists of RSA and EC keys with the same public parts", "all keys", K+"Key.__str__", K+"KEYS.__str__", K+"KEYS.__repr__", K+"Key.to_dict")
p("keys of an unknown type have no text",
  "For a key that keyrep makes of a dictionary with an unknown kty, str() and keys() raise AttributeError.",
  "every such dictionary", "all dictionaries", K+"Key.__str__", K+"Key.keys", K+"keyrep")
p("the names of an RSA key",
  "keys() of an RSA key lists kty, those of use, kid and alg that are set, those of the nine numbers that are set, and the unknown members, and nothing else.",
  "every well-formed RSA key", "all keys", K+"Key.keys", K+"RSAKey.to_dict", K+"Key.common")
p("dicthash",
  "Equal dictionaries have equal dicthash, and different ones have different ones as far as the hash of texts has no collisions.",
  "every two dictionaries", "all orders of members", K+"dicthash")
p("the stream filter",
  "aes_enc and aes_dec give the whole text to the cipher once and append what final returns; for an empty text only final is called.",
  "every cipher and text", "all ciphers", E+"cipher_filter", E+"aes_enc", E+"aes_dec")
p("JWE_SYM with a key object or octets",
  "What JWE_SYM encrypts with a symmetric key object, its secret being octets or text, or with octets, JWE_SYM decrypts with any of the three that has the same octets; with a list of numbers as the key it does neither.",
  "every key of 16, 24 or 32 octets, message, header and random draw", "all keys and messages", E+"JWE_SYM.encrypt", E+"JWE_SYM.decrypt")
p("JWE_SYM and JWE agree",
  "What JWE_SYM encrypts with a symmetric key object, JWE decrypts with the same object, and the other way round.",
  "every symmetric key object", "all keys", E+"JWE_SYM.encrypt", E+"JWE.decrypt", K+"SYMKey.encryption_key")
p("jwdecrypt with a certificate prints nothing",
  "jwdecrypt with -X or -x (and without -j and -J) never prints a message; line ends around the token in the file do not change what it does.",
  "every certificate, file and message", "negative property", "script/jwdecrypt.py", K+"load_x509_cert", K+"rsa_load")
p("what keyrep makes of an object",
  "The class follows kty; kty, alg, use and kid given as text are kept, absent ones are empty; a member whose name keys of this type do not know becomes a member of the key with its value (text as UTF-8), and a name they know never does.",
  "every dictionary keyrep accepts", "all member names", K+"keyrep", K+"Key.__init__", K+"RSAKey.__init__", K+"ECKey.__init__", K+"SYMKey.__init__")
p("unknown members are printed again",
  "to_dict returns the members of the private form and, over them, the unknown members: every unknown member of an object given to keyrep is in to_dict with its value. (Known members that are not printed, such as x5u, are lost.)",
  "every key and dictionary", "all member names", K+"Key.to_dict", K+"keyrep")
p("RSA keys made of a key object",
  "RSAKey(key=object) takes n and e of the object, d if it has one, p and q if it is private, and leaves the other numbers as given; if n and e are given as well, all the given numbers are kept and the object stays.",
  "every key object and argument", "all key objects", K+"RSAKey.__init__", K+"RSAKey._split")
p("EC keys made of a curve or numbers",
  "ECKey(key=curve) draws a key pair of this curve: d in 1..N-1 and the point d*G in the order x, y; a curve given as curve is kept and nothing is computed; integers given with the name of a curve are kept.",
  "every curve of the library, draw and argument", "all draws", K+"ECKey.__init__", C+"NISTEllipticCurve.key_pair")
p("symmetric keys made of a secret",
  "SYMKey(key=secret), octets or text, has the octets (the UTF-8 of the text) as key for signing and verifying, whatever k is.",
  "every secret", "all secrets", K+"SYMKey.__init__", K+"Key.get_key")
p("wrapping raw keys",
  "jwk_wrap gives an RSA key object a key with its numbers, text a symmetric key with its UTF-8, a curve a fresh key pair on it, with use and kid as given, no alg and no unknown members.",
  "every key object with positive n and e, text, curve and draw", "all keys", K+"jwk_wrap")
p("what loading a key set leaves behind",
  "Loading adds the keys of the set after the present ones; text that is no JSON, no object or without keys changes nothing and raises; a key that cannot be read raises its error, and the keys before it have been added; a failed request changes nothing.",
  "every text, list of keys and server", "all texts", K+"KEYS.load_dict", K+"KEYS.load_jwks", K+"KEYS.load_from_url")
p("the encryption key of an RSA key",
  "encryption_key of an RSA key is its key object; of a key with only n and e the object made of n and e, which the key keeps.",
  "every RSA key", "all keys", K+"RSAKey.encryption_key", K+"RSAKey.deserialize")
p("verify of keys",
  "verify is true, and changes nothing, if every number is unset, an integer or a list of base64url octets, and kid is text; it raises HeaderError if kid is set and no text; for numbers in base64url text it is false, or raises UnicodeDecodeError: never true.",
  "every key", "all keys", K+"Key.verify")
p("the constructor of JWS keeps its parameters",
  "JWS(msg, ...) keeps jku, x5u, x5t, kid, typ, cty and the list x5c as given, alg is none if absent; without arguments there are no parameters; headers of a token with a member self cannot be read, a member msg becomes the message.",
  "every message and argument", "all arguments", S+"JWx.__init__", S+"JWS.__init__", S+"JWS.verify_compact")
p("crit is stored as x5c",
  "The constructor of JWS never keeps a parameter crit: its value replaces the certificate chain x5c.",
  "every message and argument", "negative property", S+"JWx.__init__")
p("the argument jwk of JWS",
  "A key object given as jwk is kept; a dictionary or JSON text is read by keyrep and its errors are raised; JSON that is no object raises AttributeError.",
  "every message, argument, dictionary and text", "all texts", S+"JWx.__init__")
p("ECDSA with a key that is no point",
  "Verifying an ECDSA signature with a key that is no point raises BadSignature if a half of the signature is out of range, and otherwise the error of taking the key as a point.",
  "every message, signature and material", "all signatures", S+"DSASigner.verify")
p("EC keys with a coordinate zero",
  "get_key gives the point and the private value of every key whose numbers are not zero, and ValueError if there is no private value. The point of P-256 with x = 0 is a valid key that get_key refuses and serialize cannot print.",
  "every EC key", "a single point in 2^256", K+"ECKey.get_key", K+"ECKey.serialize", K+"ECKey.encryption_key")
p("the value of a signature",
  "A token signed with an algorithm other than none ends with the HMAC, the RSA signature or the ECDSA pair (r, s) of exactly the text before it, by the table of RFC 7518 section 3: r is the x coordinate of n*G modulo N for the drawn nonce n, s*n = h + r*d modulo N, and both have the length of the field.",
  "every message, key, header, nonce and signature scheme", "all algorithms and keys; a wrong formula used by signer and verifier alike passes every round-trip test", S+"JWS.sign_compact", S+"SIGNER_ALGS", S+"DSASigner.sign", C+"EllipticCurve.sign")
p("what verify_compact can raise",
  "With complete keys, verifying text raises BadSyntax, a ValueError, WrongNumberOfParts, SignerAlgError, NoSuitableSigningKeys or BadSignature; TypeError only if the header is no object or for ECDSA, AttributeError only for alg or cty that is no text, KeyError only for a missing or unknown alg.",
  "every token and list of complete keys", "all tokens", S+"JWS.verify_compact", S+"JWS._verify_alg")
p("further keys never hurt",
  "Keys added behind those that verify or decrypt a token change nothing. Complete keys put in front never make an HMAC or RSA token fail, and the message stays the same.",
  "every token and list of keys", "all lists of keys", S+"JWS.verify_compact", E+"JWE.decrypt")
p("points that are not on the curve",
  "The shared secret of a private value and a point that is not on the curve is that of the curve with the same a through the point, if this curve is nonsingular and has no point of order two: the constant b is never used.",
  "every curve, private value and point", "all points", C+"EllipticCurve.dh_z", L+"mulp", L+"doublef", L+"addf")
p("ephemeral keys reveal nothing about the private value",
  "Whether an ECDH-ES token is opened does not depend on the private value if its ephemeral key is not on the curve: such keys are refused.",
  "every token and private key", "one token in 2^512, all private values", E+"JWE_EC.dec_setup", C+"EllipticCurve.dh_z", X+"ecdh_derive_key")
p("AES-CBC-HMAC block by block",
  "The ciphertext is the CBC chain of AES under the second half of the key over the text padded with 1 to 16 octets of their number; the tag is the first half of the HMAC under the first half of the key over aad, iv, ciphertext and the bit length of aad. Decryption takes the same chain back and drops as many octets as the last one says.",
  "every key, iv, aad and text", "swapping the halves in both directions passes every round-trip test", X+"aes_cbc_hmac_encrypt", X+"aes_cbc_hmac_decrypt", X+"pkcs5pad")
p("certificates are read where their key is",
  "der2rsa imports the SubjectPublicKeyInfo of every X.509 certificate, and returns a key only for a DER sequence that begins with a DER sequence of at least seven members.",
  "every certificate, every text", "all certificates", K+"der2rsa")
p("only the key of the first certificate matters",
  "An RSA key given by x5c alone has the key of the first certificate; its signature, validity and names and the other members of the chain make no difference.",
  "every chain of certificates", "all certificates", K+"RSAKey.deserialize", K+"der2rsa")
p("the kid of an encrypted token selects the key",
  "Decrypting what factory has read is decrypting the token with those of the keys that have its kid. decrypt of a fresh instance uses only keys with the kid of the token.",
  "every token and list of keys", "all tokens", E+"factory", E+"JWE.decrypt", S+"JWx.pick_keys")
p("only the ten algorithms of key management are accepted",
  "JWE.decrypt returns a message only if the alg of the token is one of the ten that RFC 7518 defines for RSA, AES key wrap and ECDH-ES.",
  "every token, keys and content key", "all names", E+"JWE.decrypt")
p("recognition of values that are no text",
  "is_jws of a value that is neither text nor octets raises AttributeError.",
  "every such value", "all values", S+"JWS.is_jws")
p("integers of certificates are in two's complement",
  "An integer of n octets read by der2rsa lies between -256^n/2 and 256^n/2 and is congruent modulo 256^n to its octets read as an unsigned number.",
  "every nonempty octet string", "all integers", K+"der2rsa")
p("a refused token leaves nothing behind",
  "After JWT.unpack has raised, the object is as it was before.",
  "every object and token", "all refused tokens", T+"JWT.unpack", T+"JWT.payload")
p("using a key does not change it",
  "After encryption_key has returned, calling it again returns the same, the key equals exactly what it was equal to before, and what it can do is the same.",
  "every key", "all keys", K+"RSAKey.encryption_key", K+"SYMKey.encryption_key", K+"SYMKey.deserialize", K+"RSAKey.deserialize", K+"Key.serialize")
p("signed tokens of other implementations are accepted",
  "A compact token is verified if its header is any UTF-8 JSON object with a supported alg and a text as cty (or none) and its signature is valid per RFC 7518 under one of the given keys that fits.",
  "every header, payload and key", "all conforming tokens", S+"JWS.verify_compact", T+"JWT.unpack")
p("encrypted tokens of other implementations are decrypted with RSA",
  "A compact token whose header is any UTF-8 JSON object with an RSA algorithm, whose content key is encrypted under the key and whose content is that of RFC 7518 5.2 or 5.3, is decrypted to its text.",
  "every header, text and key", "all conforming tokens", E+"JWE.decrypt", E+"JWE_RSA.decrypt", E+"JWEnc.b64_protected_header", G+"AES_GCM.decrypt")
p("encrypted tokens of other implementations are decrypted with AES key wrap",
  "A compact token with A128KW, A192KW or A256KW whose content key is wrapped under the key per RFC 3394 is decrypted to its text.",
  "every header, text and key", "all conforming tokens", E+"JWE.decrypt", E+"JWE_SYM.decrypt", K+"SYMKey.encryption_key", W+"aes_unwrap_key")
p("a failed pack leaves nothing behind",
  "After JWT.pack has raised, the object is as it was before.",
  "every object, parts and headers", "all failures", T+"JWT.pack")
p("an instance used before encrypts and decrypts as a new one",
  "After any sequence of successful encrypt and decrypt calls, decrypt and encrypt of a JWE instance return what they return for the instance as it was made; in particular every encryption draws its own content key.",
  "every instance, every sequence of calls", "sequences of calls are unbounded", E+"JWE.encrypt", E+"JWE.decrypt", E+"JWE_EC.enc_setup")
p("a JWS instance used before accepts no more",
  "After any sequence of verifications, signatures and is_jws calls, successful or not, verify_compact of the instance answers what it answers for the instance as it was made, or refuses the token because its alg is not the one remembered.",
  "every instance, every sequence of calls", "sequences of calls are unbounded", S+"JWS.verify_compact", S+"JWS.sign_compact", S+"JWS.is_jws")
p("a refused JSON token leaves the instance harmless",
  "verify_json does not depend on the instance it is called on. After it has refused a token, the instance accepts nothing it would not have accepted before.",
  "every instance and text", "all refused tokens", S+"JWS.verify_json", S+"JWx.__init__")
p("a signed token inside an encrypted one comes back",
  "A compact JWS encrypted as message of a JWE decrypts to octets that verify_compact accepts, with the signed message as payload.",
  "every signed token, every key management algorithm, all keys that fit", "the combination of all algorithms and contents", E+"JWE.encrypt", E+"JWE.decrypt", S+"JWS.verify_compact")
p("what the header of an encrypted token says",
  "The protected header has alg and enc of the instance, the kid given by the caller (not RSA), else that of the key, else that of the instance, jku, x5u, x5t, typ and cty of the instance, the public form of its jwk, for key agreement the public form of the ephemeral key, and no other members: neither content key nor message nor private numbers.",
  "every instance, keys and arguments", "all instances", E+"JWE.encrypt", E+"JWE_SYM.encrypt", E+"JWE_RSA.encrypt", E+"JWE_EC.enc_setup", E+"JWE_EC.encrypt", S+"JWx.headers")
p("thumbprints tell keys apart",
  "Two complete keys with the same thumbprint, or with the same kid made by add_kid, have the same type and public numbers (or secret), or the two texts hashed are a collision of the hash function.",
  "every pair of keys", "all pairs", K+"Key.thumbprint", K+"Key.add_kid")
p("hexread is read in hexadecimal",
  "hexread(n) returns the 2n lower-case hexadecimal digits of the next n octets of the stream.",
  "every object, every sequence of reads, every n", "unbounded streams", B+"PBKDF2.hexread", B+"PBKDF2.read")
p("a compressed point determines the point",
  "Two points of a built-in curve with the same compressed form are the same point; a point and its opposite have different sign bits.",
  "all points of the three curves", "more points than can be tried", C+"NISTEllipticCurve.compress", L+"sign_bit")
p("curve_q gives the curve through a point",
  "For every point, p and modulus there is exactly one q between 0 and the modulus such that the point is on the curve, and curve_q returns it.",
  "all integers and moduli", "unbounded integers", L+"curve_q", L+"element")
p("ecdh_derive_key",
  "ecdh_derive_key hashes the shared secret, the name and both parties with their lengths and the number of bits with the Concat KDF; both sides get the same key of the size asked for.",
  "all key pairs of the three curves, all parties, names and sizes", "more keys than can be tried", X+"ecdh_derive_key", X+"concat_sha256")
p("intarr2bin",
  "intarr2bin turns a list of octets into the bytes with these values.",
  "all lists of octets", "unbounded lists", I+"intarr2bin")
p("base64url_to_long of a text",
  "base64url_to_long decodes a text in the alphabet of base64url to the integer base64_to_long decodes it to.",
  "all texts", "all texts", I+"base64url_to_long")
p("loading an RSA key from a file",
  "RSAKey().load(filename) is the object RSAKey(key=k) for the key in the file; if the file cannot be read or holds no key, the object stays as it was.",
  "every file and key", "all files", K+"RSAKey.load", K+"rsa_load", K+"x509_rsa_load")
p("signing leaves the caller's header dictionary as it was",
  "After sign_compact or sign_json the dictionaries of protected headers passed by the caller are what they were before, so that using them again has no effect on later tokens.",
  "every instance, keys and dictionary", "all sequences of calls", S+"JWS.alg_keys", S+"JWS.sign_compact", S+"JWS.sign_json")
p("entries of sign_json may share a dictionary",
  "If several entries of headers are one and the same dictionary object, sign_json returns what it returns for copies of it.",
  "every sharing of dictionaries, every list of entries", "all patterns of sharing", S+"JWS.sign_json", S+"JWS.alg_keys")
p("JSON headers and payloads are read as RFC 8259 says",
  "The json.loads the package applies to headers, payloads and key sets accepts a text exactly if the grammar of RFC 8259 (with CPython's NaN, Infinity and -Infinity) derives it, and returns the value the grammar gives it; every other text is a JSONDecodeError; what json.dumps writes is in the grammar.",
  "all texts and values", "unboundedly many texts, including every nesting depth", T+"JWT.unpack", T+"JWT.payload", T+"b64encode_item")
p("repeated members in a header",
  "If a member name occurs more than once in a header, the last occurrence alone counts, and the parsed header has every name once.",
  "every object text, white space and order of members", "all repetitions", T+"JWT.unpack")
p("texts are encoded as RFC 3629 says",
  "Encoding a text gives exactly its UTF-8 octets and raises UnicodeEncodeError exactly if a character has none (a surrogate); decoding octets gives the text they encode and raises UnicodeDecodeError exactly if they encode none.",
  "all texts and byte strings", "all texts", I+"as_bytes", I+"as_unicode", T+"JWT.unpack")
p("as_unicode and as_bytes",
  "as_unicode turns UTF-8 octets into their text and returns everything else, also other octets, unchanged; as_bytes turns a text into its UTF-8 octets, raises UnicodeEncodeError for a text with a surrogate, and returns everything else unchanged.",
  "all values", "all values", I+"as_unicode", I+"as_bytes")
p("b64d_enc_dec",
  "b64d_enc_dec returns t for exactly the ASCII texts whose base64url decoding is the UTF-8 encoding of t.",
  "all texts", "all texts", I+"b64d_enc_dec")
p("JSON in byte strings",
  "json.loads of a byte string returns v exactly if the byte string is the UTF-8 encoding of a JSON text with value v.",
  "all byte strings that are UTF-8", "the guess of the encoding depends on the first four octets", T+"JWT.payload", K+"KEYS.load_jwks")
p("what unpack accepts",
  "unpack accepts a token exactly if its octets are two or more parts joined by dots, every part decodes, and the first part is the UTF-8 encoding of a JSON text; the header is the value of that text and the parts are the decoded octets.",
  "all tokens", "all tokens", T+"JWT.unpack", T+"split_token")
p("factory and headers that are not objects",
  "factory raises TypeError for a compact token whose header is a number, null, true or false, a text containing alg, a list containing alg, or an object whose alg is a list or object; for every other token that can be unpacked it returns.",
  "all tokens", "all JSON values as header", S+"factory", S+"JWS._is_compact_jws")
p("payload and cty",
  "payload expects JSON if cty is missing or is JWT in any case of letters, returns the text for any other cty that is a text or byte string, and raises AttributeError for a cty of another type.",
  "all headers that are dictionaries and all payloads", "all values of cty", T+"JWT.payload")
p("what JWE.decrypt can raise",
  "Called with a non-empty list of complete keys on an unused instance, decrypt of a token from outside raises only: BadSyntax, ValueError or a subclass, one of the exceptions of jwe.py and of the primitives (WrongEncryptionAlgorithm, NoSuitableDecryptionKey, NotSupportedAlgorithm, DecryptionFailed, WrongNumberOfParts, VerificationFailure, InvalidTagException, InvalidInputException, Exception, struct.error, OverflowError), and otherwise TypeError if the header is not an object, KeyError if alg is missing, false or an unknown name of the form A...KW, AttributeError if alg is not text, zlib.error or TypeError for the RSA algorithms, IndexError for tokens with fewer than five parts, and for ECDH-ES TypeError, AttributeError, ECCException, DeSerializationNotPossible, HeaderError or KeyError for a missing enc.",
  "all tokens that are text or octets, all lists of complete keys, every alg argument", "all malformed tokens", E+"JWE.decrypt", E+"JWE_SYM.decrypt", E+"JWE_RSA.decrypt", E+"JWE_EC.dec_setup")
p("one signature, few hashes",
  "On the three curves a given signature is accepted under a given public key for at most four values of the truncated hash modulo N, and for at most two if r + N is at least p.",
  "all byte strings as signature, all points of the curve as key, all hashes", "a collision search over all hashes", C+"NISTEllipticCurve.verify")
p("one signature, few keys",
  "On the three curves a given signature is accepted for a given hash under at most four key pairs, and under at most two if r + N is at least p.",
  "all byte strings as signature, all hashes and key pairs", "a search over all keys", C+"NISTEllipticCurve.verify", C+"NISTEllipticCurve.public_key_for")
p("the other signatures with the same r",
  "For a given key pair, hash and r at most four values of s are accepted; if r + N is at least p and s is accepted then exactly s and N - s are.",
  "all key pairs, hashes, r and s", "all values of s", C+"NISTEllipticCurve.verify")
p("public keys and shared secrets determine the private key",
  "Two private keys below N with the same public key are equal; two private keys have the same shared secret with some key pair exactly if they are equal or add up to N.",
  "all private keys", "all pairs of private keys", C+"NISTEllipticCurve.public_key_for", C+"NISTEllipticCurve.dh_z")
p("a known or repeated nonce gives the private key away",
  "From a signature made with a known k the private key is (s k - h) / r modulo N. Two signatures made with the same k over different truncated hashes have the same r and different s, and k is (h - h') / (s - s'), so the private key follows.",
  "all private keys, nonces and hashes", "all nonces", C+"NISTEllipticCurve.sign", C+"NISTEllipticCurve._sign_loop")
p("scalars below zero",
  "mulp(P, c) is -P for every c < 0, whatever c is, mul(P, c) is the neutral element, and muladdp raises IndexError if a scalar is below -3.",
  "all moduli, points and scalars", "all scalars", L+"mulp", L+"mul", L+"muladdp", L+"_signed_bin")
p("key identifiers that are not text",
  "A kid that Python takes for false - null, false, 0, a zero float, an empty text, list or object, and no other value - restricts the choice of keys as little as no kid; the kids true and 1, and false and 0, are the same, in the choice of keys and in by_kid; among the octets of a number true and false are 1 and 0.",
  "all headers, key lists and JSON values", "all JSON values", S+"JWx.pick_keys", K+"KEYS.by_kid", K+"deser")
p("protected headers of the JSON serialization",
  "If verify_json returns, the protected header of every entry is a JSON object that names an algorithm of the table (or none, if that is allowed), whatever its unprotected header says. A protected header that is a number, a boolean or null raises TypeError, a text raises ValueError, and the instance is not touched; a list of pairs is merged like an object before it is refused.",
  "all JSON texts and headers", "all JSON values as header", S+"JWS.verify_json")
p("header dictionaries used twice in one call",
  "sign_json gives the same text for dictionaries used both as protected and as unprotected headers as for copies of them.",
  "all header lists, keys and stores of dictionaries", "aliasing of mutable arguments", S+"JWS.sign_json", S+"JWS.alg_keys")
p("the self-test of PBKDF2.py passes",
  "test_pbkdf2() returns without raising.",
  "every behaviour of HMAC-SHA-1, Python 2 and Python 3", "the claim fails whatever the MAC computes", "src/jwkest/PBKDF2.py:test_pbkdf2")
p("messages that are neither text nor bytes",
  "JWE.encrypt refuses every message that is neither text nor bytes.",
  "all messages, algorithms, keys and header parameters", "all values as message", E+"JWE.encrypt", E+"JWe.enc_setup", I+"as_bytes", G+"AES_GCM.encrypt")
p("the numbers base64_to_long and base64url_to_long read",
  "base64url_to_long(s) returns exactly if s contains none of + / =, and the characters of s that are base64url digits are not none of them and do not leave one over in groups of four; the result is the number these digits spell in base 64, without the 2 or 4 bits that do not fill an octet. base64_to_long takes + / = too: a padding that fits ends the number, and whatever follows it is ignored.",
  "all octet strings", "all octet strings", I+"base64url_to_long", I+"base64_to_long")
p("octet strings accepted as ECDSA signatures",
  "verify accepts an octet string exactly if it is an accepted signature of twice the length of the order in which zeros have been inserted, or leading zeros of s left out, in front of s; signatures with the same two numbers are accepted alike.",
  "all curves, hashes, public keys and octet strings of any length", "all octet strings", C+"NISTEllipticCurve.verify")
p("the points mulp multiplies correctly",
  "On a nonsingular curve over a prime field mulp(P, c) is c times P for every c >= 0 exactly if P has odd order, that is, if 2m times P is the neutral element only if m times P is. It is right for every c such that no m P with 0 < m < c has order two, and (0, 0) at twice the first m such that m P has order two.",
  "every prime > 3, nonsingular curve, point and scalar", "all points and scalars", L+"mulp", L+"mulf", L+"doublef")
p("the main program of elliptic.py",
  "The two sides of the key agreement in the main program of elliptic.py compute the same point, and so do the two computations its function test takes the times of.",
  "every prime, curve, point and scalars the program can draw", "all random draws", "src/jwkest/elliptic.py:__main__", L+"mulp", L+"muladdp")
p("the shared secret with a point of order two",
  "The shared secret of d and (x, 0), for x other than 1 and -1, on the curve or not: with w the number of non-zero digits of d in non-adjacent form, dh_z raises TypeError if 3 divides w, gives x if w is 1 modulo 3 and d odd, and zero otherwise.",
  "every built-in curve, x and private value", "all private values", C+"NISTEllipticCurve.dh_z", L+"mulp")
p("the octet strings b64d decodes",
  "b64d(b) returns exactly if b is a string x of base64url characters, possibly followed by one newline and then padding, followed by any number of =, where the length of x is not one more than a multiple of four, and any = that are there complete the last group; the result is the number x spells in base 64, without the 2 or 4 bits that do not fill an octet, in big-endian octets. BadSyntax is raised exactly for other characters and for unpadded text of length 4n + 1, otherwise binascii.Error.",
  "all octet strings", "all octet strings", I+"b64d", I+"add_padding")
p("how many texts an octet string has",
  "The unpadded texts b64d decodes to a given octet string of n octets are exactly 1 if n is a multiple of 3, 16 if it is one more, and 4 if it is two more.",
  "all octet strings", "all texts for all octet strings", I+"b64d")
p("the texts of a signature",
  "verify_compact gives the same result for two tokens whose signature segments decode to the same octets. With one key and a symmetric algorithm, the unpadded signature segments accepted with a given header and payload segment are 4 for HS256, 1 for HS384 and 16 for HS512, once one is accepted.",
  "all instances, tokens, keys and MACs of the standard sizes", "all texts of the signature segment", S+"JWS.verify_compact_verbose", T+"JWT.unpack")
p("the texts of an encrypted token",
  "JWE.decrypt gives the same result and the same instance for two tokens with the same header text whose other segments decode to the same octets; each segment has 1, 16 or 4 unpadded texts, by its length modulo 3, with which the token decrypts alike.",
  "all instances, tokens and keys", "all texts of every segment", E+"JWE.decrypt", T+"JWT.unpack")
p("the key sizes implemented_keys lists",
  "implemented_keys() lists exactly the sizes get_curve accepts, implemented_keys(True) exactly those whose curve has a known order, each once; every other size raises KeyError. The size is the number of bits of the prime and of the order, the base points are on the curves, and the curves by_name gives are among those with known order.",
  "all sizes and names", "all integers as size", V+"implemented_keys", V+"get_curve", C+"NISTEllipticCurve.by_name")
p("secrets and numbers of keys given as JSON values of any type",
  "SYMKey(k=v) reads from a text its UTF-8 octets, from a list of integers 0 to 255 (or booleans, as 0 and 1) these octets, and the secret is what b64d makes of them; a v that Python takes for false gives a key without secret; a list with another item raises TypeError or ValueError, by the first such item, a positive number or true raises BadSyntax, a negative number ValueError, a fraction or an object TypeError. Numbers of keys are read from the same values, by base64_to_long.",
  "all JSON values as k or number", "all JSON values", K+"SYMKey.__init__", K+"deser", I+"base64_to_long")
p("what the length of an encrypted token says about the message",
  "In every token JWE.encrypt returns, the ciphertext segment of a plaintext of n octets has (4n+2)/3 characters (rounded down) with GCM and as many as 16*(n/16+1) octets have with CBC; so 3/4 of its length is n with GCM, and the next larger multiple of 16 with CBC. The tag segment has 22, 32 or 43 characters with CBC, as the content key has 32, 48 or 64 octets, and from 2 to 22 with GCM; without a cek given the content key has the size enc asks for. The plaintext is the message as UTF-8, compressed only if an RSA algorithm is used and zip is DEF.",
  "all instances, messages, keys and algorithms", "messages of every length", E+"JWE.encrypt", E+"JWe.enc_setup", X+"pkcs5pad", X+"aes_cbc_hmac_encrypt", G+"AES_GCM.encrypt")
p("what verify_json can raise",
  "With at least one key, all of them usable, JWS.verify_json of a text either returns or raises ValueError (or a subclass), BadSyntax, WrongNumberOfParts, SignerAlgError, NoSuitableSigningKeys, BadSignature, AssertionError, KeyError, TypeError or AttributeError; JwsFormatError, namely for every object without payload; or what loading the key in the header parameter jwk of one of the signatures raises.",
  "all instances, texts, keys and options", "all texts", S+"JWS.verify_json")
p("what loading a key from a JSON value can raise",
  "keyrep of a JSON value either returns or raises ValueError (or a subclass), AttributeError, KeyError, TypeError, ECCException, DeSerializationNotPossible, HeaderError or BadSyntax, or what RSA.construct or the reader of certificates raises. If these raise ValueError only, verify_json of a text raises nothing but these, WrongNumberOfParts, SignerAlgError, NoSuitableSigningKeys, BadSignature, AssertionError and JwsFormatError, the last exactly for objects without payload.",
  "all JSON values and texts", "all JSON values", K+"keyrep", S+"JWS.verify_json")
p("what signing can raise",
  "With at least one key, JWS.sign_compact either returns or raises ValueError (or a subclass), NoSuitableSigningKeys, UnknownAlgorithm, TypeError or AttributeError, or what the RSA library raises when signing; OverflowError only if the key object one of the keys gives for signing is a text or an octet string; and the search for a nonce can only go on without end with ES256, ES384 or ES512.",
  "all instances, messages, keys, protected headers and random numbers", "all messages, header parameters and keys", S+"JWS.sign_compact", S+"JWS.alg_keys", S+"DSASigner.sign")
p("what encrypting can raise",
  "For an instance without key objects and with at least one usable key, JWE.encrypt either returns or raises ValueError (or a subclass), NoSuitableEncryptionKey, NotSupportedAlgorithm, InvalidInputException, OverflowError, struct.error, Exception, TypeError or AttributeError; KeyError only if alg or enc is missing or alg is not in ALG2KEYLEN; ParameterError only for a zip other than DEF and HeaderError only for a kid that is no text, both only with the RSA algorithms, where also what the RSA library raises can come out; ECCException, SerializationNotPossible and BadSyntax only with ECDH-ES.",
  "all instances, messages, keys, content keys and random octets", "all messages, header parameters and keys", E+"JWE.encrypt", E+"JWE_RSA.encrypt", E+"JWE_SYM.encrypt", E+"JWE_EC.enc_setup")
p("what sign_json can raise",
  "With at least one key, JWS.sign_json either returns or raises ValueError (or a subclass), NoSuitableSigningKeys, UnknownAlgorithm, TypeError or AttributeError, what the RSA library raises when signing, or what loading the key in the parameter jwk of one of the protected headers given raises; OverflowError only if the key object one of the keys gives for signing is a text or an octet string; and the search for a nonce can only go on without end if the algorithm of some entry (that of its protected header, otherwise that of the instance) is ES256, ES384 or ES512.",
  "all instances, messages, keys, headers and random numbers", "all lists of header pairs", S+"JWS.sign_json", S+"JWS.sign_compact", S+"JWS.__init__")
p("which keys can be serialized",
  "serialize returns for exactly these keys: those of the base class (None); RSA keys with a key object whose numbers to be written (n and e, or all nine) are positive integers or false in Python's sense; EC keys with a curve and positive integers as coordinates and, if it is to be written and true, as private value; symmetric keys whose secret is an octet string, a boolean, an integer of at least 0, a list of integers 0 to 255 or an empty dictionary. to_dict returns for the same keys except those of the base class. Otherwise SerializationNotPossible, AttributeError, TypeError or ValueError is raised, by the kind of key, or a negative number is divided without end.",
  "all keys; the exceptions for keys without fractions as numbers", "all keys and all values of their attributes", K+"RSAKey.serialize", K+"ECKey.serialize", K+"SYMKey.serialize", K+"Key.to_dict", I+"long_to_base64")
p("which keys have a thumbprint",
  "thumbprint of a key whose kty is a text returns exactly if serialize() of its public part returns, the key is not of the base class and the hash is named SHA-256, SHA-384 or SHA-512. hash(key) returns exactly if the key has a thumbprint or its hash is known already and not 0.",
  "all keys and hash names", "all keys and all values of their attributes", K+"Key.thumbprint", K+"Key.__hash__")
p("which values can be packed",
  "b64encode_item returns exactly for octet strings, texts without surrogates, null, and lists and dictionaries in which no fraction occurs and every octet string is UTF-8; JWT.pack of a non-empty list of parts returns exactly if all parts and the header are of this kind, the header being the one given, else that of the instance, else {'alg': 'none'}. The constructor JWT(**headers) returns exactly if its parameters can be packed, alg being replaced by null if it is missing or false.",
  "all instances, headers and non-empty lists of parts", "all values and nestings", T+"b64encode_item", T+"b2s_conv", T+"JWT.pack", T+"JWT.__init__")
p("which key sets can be dumped",
  "KEYS.dump_jwks returns exactly if every key of the set can be serialized without its private part and no fraction occurs in what it is serialized to and every octet string in it is UTF-8; so a set can be dumped exactly if each of its keys can be dumped by itself.",
  "all key sets", "all keys and all values of their attributes", K+"KEYS.dump_jwks", T+"b2s_conv")
p("key sets with types that are no text",
  "keys[type] and as_dict() of a key set return exactly if the type of every key is a text or an octet string, otherwise AttributeError is raised; keys[type] then holds exactly the keys whose type is a text equal to the one asked for but for case. key_types() returns exactly if no type is a list or a dictionary, otherwise TypeError is raised.",
  "all key sets", "all values of the type", K+"KEYS.__getitem__", K+"KEYS.as_dict", K+"KEYS.key_types")
p("what aes_wrap_key accepts and what its result says",
  "aes_wrap_key returns exactly for keys of 16, 24 or 32 octets and initial values of 64 bits; otherwise it raises ValueError for the key and struct.error for the initial value. Two results under the same key are equal exactly if the initial values and the texts without the octets after the last whole block of eight are equal.",
  "all keys, texts below 2^63 octets and initial values", "all lengths and integers", W+"aes_wrap_key")
