{
 "C03": {
  "note": "False as stated: b64d(b'ab\\n==') is accepted (the regex $ matches before a final newline). Proved: at most one trailing newline before padding can slip through, and unpadded input is checked strictly. The exact condition is C269."
 },
 "C04": {
  "note": "False as stated: unused trailing bits are ignored. Proved: only the last character can differ from the canonical text, and text whose length is a multiple of 4 is canonical. The exact number of texts is C270."
 },
 "C05": {
  "note": "Proved for n > 0; for n = 0 long_to_base64 raises TypeError on Python 3 (refuted)."
 },
 "C06": {
  "note": "False as stated: only '+', '/', '=' are rejected, other junk is skipped."
 },
 "C09": {
  "note": "False as stated: exactly the integers with an odd number of hex digits raise."
 },
 "C10": {
  "note": "Proved for non-empty part lists (also C102). For the empty list pack returns the lone header segment, which unpack refuses with BadSyntax (refuted)."
 },
 "C101": {
  "note": "aes_wrap_key_withpad adds str to bytes and always raises TypeError on Python 3; unwrapping is proved to invert RFC 5649 wrapping."
 },
 "C13": {
  "note": "Proved for UTF-8 payloads. False for other payloads: json.loads(bytes) guesses UTF-16/32, so bytes that are not UTF-8 may come back as a JSON value (refuted; exact behaviour in C103)."
 },
 "C14": {
  "note": "Proved when no key without a kid is offered together with a kid in the protected header (C123), and for alg none; refuted when the header carries a kid and the key none. For a single key C14_one_key says exactly when: the key has a kid or the protected header has none."
 },
 "C18": {
  "note": "Proved unless allow_none is set (C112); with allow_none a null or upper-case NONE algorithm is accepted though it is not in the table (refuted)."
 },
 "C21": {
  "note": "kid and alg are respected both ways and use when signing (C114, C115); verification accepts a key with use enc (refuted)."
 },
 "C23": {
  "note": "The decoded signature is unique (C116); the segment text is not (refuted: unused bits of the last character). The exact number of accepted texts is C271."
 },
 "C27": {
  "note": "Every listed entry is verified and non-null views agree (C117); an empty signatures list is accepted with result None (refuted)."
 },
 "C28": {
  "note": "Proved for at least one header pair and no kid outside the protected header (C122); refuted for an unprotected kid with a key without kid and for an empty list of headers."
 },
 "C29": {
  "note": "True of compact tokens (C118); a JSON serialization's header can bring the key that verifies it (refuted)."
 },
 "C30": {
  "note": "False: crit is not looked at (refuted)."
 },
 "C31": {
  "note": "False: JSON texts that are no objects and headers that are no objects raise (refuted); the cases that return are proved (C120)."
 },
 "C33": {
  "note": "False: keys fetched from jku are never tried and the call raises AttributeError (refuted); see C118."
 },
 "C34": {
  "note": "Relative to the law that the AES block function is a permutation of blocks; that law is itself proved for FIPS-197 AES (AesProofs.aes_inverse, Inst.std_aes_law). Lengths below 2^63."
 },
 "C35": {
  "note": "As C34."
 },
 "C36": {
  "note": "False for every key whose length is not a multiple of 8: the tail is dropped."
 },
 "C38": {
  "note": "False: only the last octet is examined. Exact description of what is accepted: C95."
 },
 "C46": {
  "note": "False: IV sequence 1, 2, 1 is accepted for every key. True part: C97."
 },
 "C47": {
  "note": "Proved for 16-octet keys and 32-octet keys with non-zero first half; false for all 24-octet keys and for 32-octet keys starting with 16 zero octets."
 },
 "C48": {
  "note": "False: a tag with leading zero octets is encoded shorter (refuted with a 15-octet tag); C125 is what holds."
 },
 "C49": {
  "note": "For any AES obeying the inverse law; the length limits of content_total are those of GCM."
 },
 "C51": {
  "note": "Proved for wrapped keys with text messages, RSA, and ECDH-ES with an EC key that has its private value; refuted for bytes messages with a wrapped key and for public EC keys."
 },
 "C52": {
  "note": "Proved for RSA1_5 keys passed over because of their padding; refuted for wrapped keys; C135 shows that for wrapped keys and ECDH-ES only the first suitable key counts."
 },
 "C54": {
  "note": "At least five proved, exactly five with wrapped keys; refuted for RSA, see C131."
 },
 "C55": {
  "note": "RSA compresses and decompresses; wrapped keys and ECDH-ES drop the option when encrypting and return the message."
 },
 "C56": {
  "note": "Sizes proved; unknown names raise unless both values are given, in which case they are returned (refuted)."
 },
 "C58": {
  "note": "False for every input: the 4-octet length of the algorithm id is missing, the rest agrees. True part: C98."
 },
 "C60": {
  "note": "All nine numbers and kty, alg, use, kid are proved to survive exactly. The certificate members (x5c, x5t, x5u) and unknown extra members do not (refuted)."
 },
 "C61": {
  "note": "Curve, x, y and annotations are proved to survive for positive coordinates. The private value comes back as undecoded base64 octets and the crv attribute as bytes, so the key differs from the original (refuted); C107 gives the reader that restores private keys."
 },
 "C62": {
  "note": "Proved for non-empty secrets; the empty secret comes back as no key (refuted)."
 },
 "C64": {
  "note": "True for RSA and EC keys (proved, C63); false for symmetric keys: k is written out (refuted)."
 },
 "C65": {
  "note": "Proved for RSA and EC keys; for symmetric keys the secret k is copied (refuted)."
 },
 "C66": {
  "note": "Proved for RSA and oct keys. EC thumbprints leave out kty (exact text proved; refuted against RFC 7638 with SHA-256)."
 },
 "C67": {
  "note": "Proved for the RSA, EC and symmetric classes on plain (NaN-free JSON-like) members; for the base class Key == raises AttributeError (refuted)."
 },
 "C68": {
  "note": "Proved for keys whose cached parts agree with their public members, and for keys with a kid. Refuted: symmetric keys built from raw secrets are all equal but hash differently; hashing a key without a kid sets its kid and changes equality."
 },
 "C74": {
  "note": "addf is proved for all operands. doublef is proved except at points with y = 0, where it is wrong on general curves (refuted on a curve over Z/23); the built-in curves have no such point (C92)."
 },
 "C76": {
  "note": "False for points of even order (refuted); proved for all curves without points of order two, hence for every built-in curve (C92), and for exactly the points of odd order on all curves (C266). The affine mul is proved for all curves."
 },
 "C77": {
  "note": "As C76: proved for curves without points of order two and for points of odd order on all curves; refuted otherwise."
 },
 "C82": {
  "note": "Acceptance is exactly the textbook condition. Refusal can be an uncaught TypeError (when the combination is the neutral element) instead of False: refuted part; no other exception is possible."
 },
 "C83": {
  "note": "False for hashes as long as N but larger (refuted); proved for h <= N, always the case for ES512."
 },
 "C84": {
  "note": "False: a nonce giving s = 0 (or r = 0) is reused for ever (refuted); proved to return for every other nonce."
 },
 "C85": {
  "note": "The produced length is proved; verify accepts longer signatures (refuted)."
 },
 "C86": {
  "note": "False (refuted for ECDH and for verify)."
 },
 "C87": {
  "note": "False: y_from_x is unimplemented (refuted)."
 },
 "C88": {
  "note": "PBKDF2 objects exist on Python 2 only (C91). Negative sizes are covered by C88_one_stream and C149_step."
 },
 "C89": {
  "note": "HMAC-SHA1 enters by its length law only; RFC 6070 vectors are checked with the executable instance."
 },
 "C90": {
  "note": "Holds for every result crypt returns on Python 2, whatever count is given the second time; the calls that return are characterised exactly. The full claim is false: with two or more iterations the hash is a text and base64 refuses non-ASCII text (C90_refuted), and on Python 3 crypt never returns (C147)."
 },
 "C91": {
  "note": "False of the code: the encoded passphrase is bytes and the following isinstance(str) test refuses it, so no call returns on Python 3; bytes are refused too. Python 2 takes ASCII octets."
 },
 "C153": {
  "note": "False as stated: proved for HS256, HS384 and HS512; for every other name (RS256, ES256, PS256, ...) left_hash returns None."
 },
 "C154": {
  "note": "False as stated: mpint appends a zero octet, multiplying the number by 256, and mp2bin keeps it. Proved: the length prefix is right."
 },
 "C155": {
  "note": "False as stated: key_eq raises TypeError for two RSA keys, as it tests isinstance against the module RSA. Proved for texts and for keys of different kinds; rsa_eq is right."
 },
 "C158": {
  "note": "False as stated: numbers that the new key does not have stay. A public key loaded over a private one leaves the old d in place. Proved for a new object."
 },
 "C159": {
  "note": "False as stated: the padding is removed too, so a certificate is only accepted if its length is a multiple of three; otherwise binascii.Error."
 },
 "C162": {
  "note": "False as stated: with a non-empty party value the function never returns on Python 3. Proved for empty ones."
 },
 "C183": {
  "note": "False as stated: the name of the wrapping algorithm (A128KW ...) is hashed, without its length (see C58)."
 },
 "C191": {
  "note": "False as stated: repr shows the order of members of inner dictionaries and tells True from 1. Proved for dictionaries that differ in the order of their members."
 },
 "C194": {
  "note": "False as stated: JWE wraps with the first octets of a hash of the secret, JWE_SYM with the secret itself; both directions fail."
 },
 "C197": {
  "note": "proved for unknown members; the claim for known members (x5u, x5t of a loaded key) is refuted"
 },
 "C204": {
  "note": "what verify answers is proved for all keys; that it accepts keys in base64url form, its purpose, is refuted"
 },
 "C209": {
  "note": "proved for keys without a coordinate zero; refuted for the point of P-256 with x = 0"
 },
 "C212": {
  "note": "False for a key object without a secret in front of the right key (TypeError), and for JWE with a wrong key in front (C52, C135)."
 },
 "C214": {
  "note": "False: the point (3, 4) is on none of the curves but has order three for the code's arithmetic; one fixed token is opened by exactly the keys whose private value is not a multiple of three, otherwise TypeError is raised."
 },
 "C216": {
  "note": "Proved for certificates of version 2 and 3. False for version 1, which has no version field: IndexError."
 },
 "C218": {
  "note": "factory: proved if a key with that kid is given. False for a fresh instance: JWE().decrypt(token, keys) ignores the kid of the token."
 },
 "C219": {
  "note": "Proved for complete keys and no content key; with a content key given by the caller every name that begins with A and ends with KW is accepted (refuted). The form of the names is proved for all arguments."
 },
 "C222": {
  "note": "False: exactly what is left behind is proved: the headers stay, the segments are those of the refused token, and so are the parts if they decode. Witness: payload() then returns the payload of the refused token under the header of the accepted one."
 },
 "C223": {
  "note": "Proved: the second call returns the same and equality is unchanged (RSA: if no member is a text, which holds after deserialisation). False: a public copy cannot be serialized, and has no key, until encryption_key was called once."
 },
 "C225": {
  "note": "Proved for the enc values except A192GCM, and for A256GCM if the first 16 octets of the content key are not all zero. A192GCM is refuted: the key is used as one of 256 bits; which one is proved. With RSA1_5 the random sentinel must differ from the content key."
 },
 "C226": {
  "note": "False: the token of RFC 7516 A.3 is refused, because the key is hashed first. Proved: tokens wrapped under the first octets of the SHA-256 of the key are decrypted."
 },
 "C227": {
  "note": "False: exactly what is left behind is proved. Witness: the object then packs to a text without dot."
 },
 "C228": {
  "note": "Decryption: proved. Encryption: proved except for ECDH-ES+A128KW, A192KW and A256KW, for which it is false: an instance that has decrypted an RSA token encrypts under the content key of that token, whatever the random numbers."
 },
 "C230": {
  "note": "Proved: neither the answer nor what is left of the instance (up to the attribute key) depends on the instance. False: after refusing a JSON token the instance has the key embedded in that token and has lost its own alg, and then accepts a token signed with that key."
 },
 "C234": {
  "note": "Proved: the exact result after any reads. False: with more than one iteration the octets are a text (strxor uses chr of future), and hexread raises as soon as one of them is 128 or more; the octets are lost."
 },
 "C239": {
  "note": "False: bytes(data) of a text raises TypeError on Python 3, for every text."
 },
 "C241": {
  "note": "Proved: only alg, kid and typ of the caller's dictionary change. False: they do change, and a dictionary used again makes tokens their own key does not verify, or signed with the algorithm of another instance."
 },
 "C248": {
  "note": "Proved: the UTF-8 encoding of every JSON text is read as its value. False: json.loads(bytes) takes some byte strings for UTF-16 or UTF-32 that are UTF-8 of no JSON text, such as the two octets 31 00, and accepts them."
 },
 "C261": {
  "note": "True if no dictionary is on both sides; otherwise the unprotected header is written as signing left it, and the token may be refused (refuted)."
 },
 "C262": {
  "note": "The self-test always raises (refuted); the octets computed by the model agree with its vectors for 1, 12 and 13 iterations."
 },
 "C263": {
  "note": "Proved: everything else is refused but a list or dictionary without items under AES-GCM, which gives exactly the token of the empty octet string (refuted: it decrypts to the empty text)."
 },
 "C267": {
  "note": "Proved for points of odd order and for curves without points of order two; false of other draws the program can make (refuted, with a 32-bit prime and a point of order six)."
 }
}