# Formal model of pyjwkest: design

Source: `/repo` (rohe/pyjwkest at the pinned commit), read as text only (one past exception: see Trusted base).  Prover: Coq 8.16.1.
Everything lives in `rocq/theories` (logical prefix `Verif`).  Target runtime of the model: CPython 3.

## How the model is written

* Python `bytes` and `str` are `list Z` (octets resp. code points); `int` is `Z`.
* A Python function becomes a total Gallina function branch by branch; a raised exception is a value:
  `res A := Ok a | Raise e` with `e : exn` naming the Python exception class.
* Loops become structural recursion, folds, or recursion on fuel; fuel exhaustion is the distinguished
  exception `OutOfFuel`, which theorems exclude (a theorem saying "terminates" proves it is never reached).
* Mutated objects are records; a method returns the new record together with its result.
* Random bytes / nonces are explicit arguments (theorems quantify over all of them).
* Cryptographic primitives of pycryptodome (HMAC, SHA-2, AES block cipher, RSA sign/verify/encrypt/decrypt,
  zlib) are fields of a record `prims` passed as an argument; the laws a theorem needs are an explicit
  hypothesis (`aes_law`, `hash_law`, `hmac_law`, `zip_law`, `rsa_sign_law`, `rsa_enc_law`).  `Inst.v` gives a real
  instance (AES, SHA-1/2, HMAC, RSA per RFC 8017; only compression is a stand-in) and proves every law for it.
  AES modes (ECB, CBC, CTR) are written out over the block function.
* Everything pyjwkest itself implements (base64 glue, JSON container logic, key selection, key wrap, GCM,
  padding, KDF, elliptic curves, ECDSA, PBKDF2) is modelled concretely.  The stdlib pieces the properties
  depend on (`binascii.a2b_base64/b2a_base64`, UTF-8, `json.dumps`/`json.loads`) are modelled concretely too.

Every definition carries a comment with file and lines.  Simplifications are stated there and summarised below.

## Files

| file | contents |
|---|---|
| `Base.v`, `BaseProofs.v`, `PvalEq.v` | results, exceptions, byte strings, literals, Python values (`pval`), `==`, truth, dict helpers |
| `Codec.v`, `CodecProofs.v` | `jwkest/__init__.py` |
| `Utf8.v`, `Json.v`, `JsonProofs.v` | UTF-8, `json.dumps/loads` |
| `JsonGrammar.v` | the grammar of RFC 8259, written independently; `loads` accepts exactly its texts |
| `TextProofs.v`, `TextProofs2.v` | UTF-8 as RFC 3629 defines it; `as_unicode`, `as_bytes`, `unpack`, `factory` and `payload` in these terms |
| `RepoTests.v` | the assertions of the repository's own tests run on the model with the concrete primitives (its header says which are left out) |
| `Jwt.v`, `JwtProofs.v`, `JwtProofs2.v` | `jwt.py` |
| `Elliptic.v`, `EcArith.v`, `EcProofs.v`, `EcAux.v`, `EcNaf.v`, `EcNeg.v` | `elliptic.py`; refinement to the group; weight of the signed-digit form; negative scalars |
| `EcGroup.v`, `EcSpec.v`, `Zp.v` | affine group law over an abstract field (specification side), Z/p as a field |
| `Pock.v`, `PockCheck.v`, `Lucas.v`, `OrderCheck.v` | Pocklington and Morrison primality criteria, point-order check, with checkers on Bignums proved correct |
| `Certs.v`, `Nist.v` | generated (tools/gen_certs.py, gen_nist.py): primality certificates; the built-in curves are sound |
| `Ecc.v`, `EccProofs.v`, `EcUnique.v` | `ecc.py`, `curves.py`: key pairs, ECDH, ECDSA; how much a signature, a public key and a shared secret determine |
| `Prims.v` | the record of pycryptodome/zlib primitives and their laws |
| `Aes.v`, `AesProofs.v`, `Sha.v`, `Rsa.v`, `RsaProofs.v`, `Inst.v` | a real instance of the primitives (FIPS 197, FIPS 180, HMAC, RFC 8017) for which every law is proved; test vectors |
| `KeyWrap.v`, `KeyWrapProofs.v`, `KeyWrapProofs2.v` (RFC 3394) | `aes_key_wrap.py` |
| `Extra.v`, `ExtraProofs.v`, `CbcSpec.v` (RFC 7518, 5.2) | `extra.py`: padding, AES-CBC-HMAC, Concat KDF, ECDH key derivation |
| `Gcm.v`, `GcmSpec.v`, `GcmProofs.v`, `GcmProofs2.v`, `SymAux.v` | `aes_gcm.py` against SP 800-38D |
| `Jwk.v`, `JwkProofs.v`, `JwkProofs2.v`, `JwkProofs3.v`, `JwkEx.v` | `jwk.py` (`*Ex.v`: concrete keys and tokens for the examples) |
| `Der.v`, `DerProofs.v` | `der2rsa` with the DER reader of `Cryptodome.Util.asn1`, against X.690 and RFC 5280 |
| `State.v`, `StateProofs.v` | `JWT.unpack` and `JWT.pack` with the attributes they leave behind when they raise; keys after use |
| `InteropProofs.v` | tokens made by other implementations: what RFC 7518 calls a signature and an encrypted content, against `verify_compact` and `JWE.decrypt` |
| `HistoryProofs.v`, `HistoryEx.v` | instances of JWE and JWS after any sequence of calls |
| `JsonState.v` | `verify_json` (jws.py:633-676) with the instance it leaves, also when it raises; agreement with `Jws.v` |
| `KidProofs.v` | key identifiers that are not text |
| `JsonHdr.v` | the protected headers verify_json accepts |
| `SelfTest.v` | the self-test of PBKDF2.py |
| `Caller3.v` | header dictionaries of sign_json by reference |
| `JweMsg.v` | messages that are neither text nor bytes |
| `B64Num.v` | the numbers base64_to_long and base64url_to_long read, as digits in base 64 |
| `SigShape.v` | the octet strings ECDSA verification accepts |
| `B64Exact.v`, `TokTexts.v`, `TokTexts2.v` | `b64d` on every octet string; how many texts an octet string, a signature and an encrypted token have |
| `OneKey.v` | with a single key, exactly when the token signed with it is accepted |
| `Members.v` | secrets and numbers of keys given as JSON values of any type |
| `Lengths.v` | the lengths of the segments of an encrypted token (C275) |
| `JsonRaise.v` | what verify_json can raise (C276) |
| `KeyRaise.v` | what loading a key can raise (C277) |
| `SignRaise.v` | what signing can raise (C278) |
| `EncRaise.v` | what encrypting can raise (C279) |
| `SignJsonRaise.v` | what sign_json can raise (C280) |
| `Writable.v` | which keys can be serialized (C281) |
| `ThumbRaise.v` | which keys have a thumbprint (C282) |
| `Encodable.v` | which values can be packed and which key sets dumped (C283, C284) |
| `Sizes.v` | model of `implemented_keys`, the sizes of curves |
| `TwoTors.v`, `TwoTors2.v`, `TwoTors3.v` | scalar multiplication and ECDH with points of even order and of order two; the main program of elliptic.py |
| `Nested.v` | a signed token as message of an encrypted one |
| `HeaderProofs.v` | the protected header of encrypted tokens, member by member |
| `ThumbProofs.v` | thumbprints and the names `add_kid` makes tell keys apart |
| `SmallProofs.v` | functions nothing else in the package calls: `hexread`, `compress`, `curve_q`, `ecdh_derive_key`, `intarr2bin` |
| `Caller.v`, `Caller2.v` | what signing leaves in the caller's header dictionaries (jws.py:450-505, 600-629), and signing again with what is left |
| `Jws.v`, `JwsProofs.v` ... `JwsProofs11.v`, `JwsEx.v` | `jws.py` |
| `Jwe.v`, `JweProofs.v` ... `JweProofs17.v`, `JweEx.v`, `JweLeak.v` | `jwe.py` |
| `Script.v`, `ScriptProofs.v` ... `ScriptProofs3.v`, `PropScript.v` | the programs in `script` |
| `Misc.v`, `MiscProofs.v`, `PropMisc.v` | the remaining functions of `jwk.py`, `jws.py` and `jwe.py` |
| `Misc2.v`, `Misc2Proofs.v`, `ReprProofs.v`, `PropMisc2.v` | `Key.verify`, `JWx.keys`, texts and names of keys with Python's `repr`, `dicthash`, stream filters, `JWE_SYM` with a key object, certificate options of `jwdecrypt` |
| `Pbkdf2.v`, `Pbkdf2Proofs.v`, `Pbkdf2Proofs2.v` | `PBKDF2.py`, on Python 2 and 3 |
| `Prop*.v` | only the property theorems, each closed by `exact`, each followed by `Print Assumptions` and an example meeting its hypotheses |

Other files: `properties.jsonl` (the English properties), `MANIFEST.json` (status, theorems and remarks per property, generated by
tools/gen_manifest.py from the `Prop*.v` files and tools/notes.json), `AXIOMS.md` (assumptions per theorem, generated by
tools/gen_axioms.py), `seeded/LOG.jsonl` (theorems tested against wrong programs).

## Properties: plan

Status words: *prove* (expected true), *refute* (the code violates the statement; a witness theorem
`..._refuted` is proved, plus the strongest true variant where useful).

* C01, C02 prove (structural induction by groups of three bytes over a concrete b2a/a2b model).
* C03 refute: the regex `$` also matches before a final newline (`b"ab\n=="` is accepted); prove that an
  accepted input has only alphabet characters apart from one such newline.
* C04 refute: non-zero trailing bits are ignored (`"QQ"`, `"QR"`); prove the canonical-image variant.
* C05 refute for n = 0 (TypeError), prove for n > 0.  C06 refute (other junk accepted).  C07, C08 prove.
* C09 refute (odd number of hex digits), prove for even digit counts.
* C10–C13 prove over the concrete JSON model (floats in headers are rejected by `b2s_conv`).
* C14 prove relative to the primitive laws (HMAC deterministic, RSA sign/verify law); ES* relative to C81,
  which is proved; refuted when the header has a kid and the key none.  C15–C17, C19, C20, C22, C24–C26, C32 prove.
  C18 refute with allow_none, prove without.  C21: `use` is not applied on the verify side (refute that part).
* C23 refute (base64 trailing bits), prove on decoded signature bytes.
* C27 refute (empty list of signatures), prove the for-all part.  C28 refute for an unprotected kid and for no headers,
  prove otherwise.
* C29, C30, C31, C33 refute.
* C34, C35, C37, C39–C45, C49, C50, C53, C55, C57 prove relative to the AES/HMAC laws.
* C36, C38, C46, C47 (A192GCM), C48, C52, C54 (RSA), C56 (unknown names), C58 refute, with the true parts.
* C51, C59 prove relative to the primitive laws and the EC theorems; C51 refute for bytes with a wrapped key and for
  public EC keys.
* C60 (numbers), C62 (non-empty), C63, C70, C71 prove; C61 refute for private keys on Python 3, prove the public part.
* C64, C65, C67 (base class), C68 refute; C66 refute for EC, prove for RSA and oct; C69 prove.
* C72, C73, C75, C78–C81 prove in full: group law over an abstract field, refinement of the Jacobian formulas for
  every prime > 3, certificates for the NIST curves.  C74, C76, C77 fail at points of order two (doublef); proved
  everywhere else, and the built-in curves are proved to have no such point (C92).  C82: `verify` raises instead of returning False when the
  combination is the neutral element (refute that part).
* C83–C87 refute (witnesses), with the true variants.
* C88, C89 prove (objects exist on Python 2 only), C90 prove for every result crypt returns and refute totality, C91 refute.
* C92 and later are properties found while proving: exact descriptions of what the code does where an earlier property is
  false, and strengthened variants.  All are stated in `properties.jsonl` and proved.

## Which parts of the code are modelled

| source | modelled | not modelled |
|---|---|---|
| `__init__.py` | all functions | exception texts, `BadSyntax.value` |
| `jwt.py` | `split_token`, `b2s_conv`, `b64encode_item`, `JWT` | — (the attributes left behind when `unpack` or `pack` raises: `State.v`) |
| `jwk.py` | `Key`, `RSAKey`, `ECKey`, `SYMKey` with all methods below except those on the right, `keyrep`, `key_from_jwk_dict`, `jwk_wrap`, `make_public_copy`, `KEYS`, `load_jwks`, `load_jwks_from_url`; in `Misc.v` the readers of files and certificates (open(name).read() and RSA.importKey are parameters), `key_eq`, `rsa_eq`, `intarr2str`, `keyitems2keyreps`, `RSAKey.load_key`; in `Misc2.v` `dicthash`, `__str__`, `__repr__`, `keys`, `verify` | — (`der2rsa` is a field of `prims`; `Der.v` models it with RSA.importKey as parameter) |
| `jws.py` | signers, `JWx` (construction, key collection and selection), `JWS`, `factory`; in `Misc.v` `left_hash`, `mpint`, `mp2bin`, `JWSig.valid`, the mapping methods of `JWx`, `headers` with its argument, `_decode`, `dump_header`; in `Misc2.v` `JWx.keys` | |
| `jwe.py` | `RSAEncrypter`, `JWEnc`, `JWe`, `JWE_SYM`, `JWE_RSA`, `JWE_EC`, `JWE`, `factory`; in `Misc.v` `int2bigendian`, `party_value`, `_hash_input`, `keysize`; in `Misc2.v` `cipher_filter`, `aes_enc`, `aes_dec`, `JWE_SYM` with a key of any kind | |
| `extra.py`, `ecc.py`, `curves.py`, `elliptic.py`, `aes_gcm.py`, `aes_key_wrap.py` | all functions; the key agreement of the main program of `elliptic.py` (`TwoTors.v`) | the timing in it; the self-tests of `aes_gcm.py` and `aes_key_wrap.py` (their vectors are examples in `PropSym.v`) |
| `PBKDF2.py` | all functions, default MAC and digest (`test_pbkdf2` in `SelfTest.v`) | other `macmodule`/`digestmodule` |
| `script/*` | in `Script.v` the programs `jwkutil`, `jwenc`, `jwdecrypt`, `peek`, `gen_symkey`, `jwk_create` as functions of the parsed options; files, standard input and random choices are parameters; in `Misc2.v` `jwdecrypt -X` and `-x` | `argparse`, the log file, `jwk_export` (its first import fails) |

Outside /repo but modelled concretely because results depend on it: base64 (`binascii`), UTF-8/16/32, `json.dumps`/`loads`,
`hex`/`unhexlify`, `struct.pack`, `long_to_bytes`, string methods, dict order and `==`.  Represented by `prims`: AES block
function, SHA-1/2, HMAC, RSA (PKCS#1 v1.5, PSS, OAEP), zlib, `RSA.construct`, certificate to RSA key, HTTP GET.

## Simplifications

Each is also stated at the definition.

* Runtime: CPython 3 except in `Pbkdf2.v`.  Integers are unbounded.  Memory exhaustion, recursion limits and timing are not
  modelled; "constant time" is not a claim of the model.
* Values passed to the API are `pval`: None, bool, int, float, text, bytes, list, dict with text keys.  Floats are kept as
  their decimal text, compared by text (`1.0 == 1` is false in the model).  Other Python objects are not passed, except keys,
  curves and RSA keys where the code expects them.
* `lower()`/`upper()` act on ASCII letters only.  For the comparisons with the fixed names none, jwt, jwe and jws
  this is exact: the only other code point whose lower case is an ASCII letter is U+212A.  It is not exact for a key type
  written with U+017F (whose upper case is S) in keyitems2keyreps, nor for `KEYS[...]` and `as_dict` on key types that are
  not ASCII.
* JSON: the recursion limit of the parser and the 4300-digit limit of `int` are left out.
* An exception carries its class only.  `UnboundLocalError` is `EException`.
* A loop that never ends in Python is `NonTermination` (ECDSA signing with a bad nonce, C84).
* Randomness is an argument: theorems hold for every outcome.  No claim about unpredictability or probability is made.
* Theorems about forgery are of the form "accepted implies the check value equals what the primitive computes"; computational
  hardness is outside the model.
* `encryption_key` of a key object stores a derived value in the object; the model of JWE does not keep this mutation. What the
  stored values change is modelled apart (C223).
* `verify_json` of `Jws.v` forgets the attribute `key` when it initialises the instance again, which Python does not;
  `JsonState.v` keeps it, and C230 proves that the answers agree.
* `Jws.v` treats dictionaries as values.  That signing assigns to the caller's dictionary is modelled in `Caller.v`; C242 proves
  that entries of `sign_json` sharing one dictionary make no difference.  `Caller3.v` models dictionaries
  used as protected and as unprotected headers by reference (C261).
* Messages given to `JWE.encrypt` are text, bytes or JSON values; other Python objects are not modelled.
* The line breaks the base64 codec inserts and PBKDF2.py removes, and big-endian hosts in `_makesalt`, are left out.

## Trusted base

* Coq's kernel (and `coqchk` as second checker).
* Axioms: none of our own.  `AXIOMS.md` lists what `Print Assumptions` says for every property theorem: most are closed
  under the global context; the theorems about the concrete NIST curves (in `PropEc.v`, and those of `PropJws.v`/`PropJwe.v`
  that go through ECDSA or ECDH) depend on the primitive 63-bit integers of the standard library
  (`Coq.Numbers.Cyclic.Int63.PrimInt63`) and their specifications (`Uint63.*_spec`), used through Bignums in the primality
  and order checks.
* Laws of `prims` are hypotheses of the theorems that need them, never axioms, and are proved for the instance in `Inst.v`.
* The reading of the Python source that the definitions encode (cited per definition).  One exception to
  "read as text only": until this was noticed, `tools/gen_certs.py`, `tools/gen_nist.py` and three one-off
  scripts that searched for the numbers in `certs.json` and `noroot.json` passed the text of `curves.py` to Python's `exec` to obtain the constants in `DOMAINS`.  That file only defines constants and two functions, which were
  not called.  The tools now read the numbers as text (`tools/domains.py`) and write byte for byte the same `Certs.v` and
  `Nist.v`.  The certificates themselves are checked in Coq against the constants of
  `Ecc.v`.  No other code of /repo was executed.
