-Q theories Verif
theories/Aes.v
theories/AesProofs.v
theories/B64Exact.v
theories/B64Num.v
theories/Base.v
theories/BaseProofs.v
theories/Caller.v
theories/Caller2.v
theories/Caller3.v
theories/CbcSpec.v
theories/Certs.v
theories/Codec.v
theories/CodecProofs.v
theories/Der.v
theories/DerProofs.v
theories/EcArith.v
theories/EcAux.v
theories/EcGroup.v
theories/EcLeak.v
theories/EcNaf.v
theories/EcNeg.v
theories/EcProofs.v
theories/EcSpec.v
theories/EcUnique.v
theories/Ecc.v
theories/EccProofs.v
theories/Elliptic.v
theories/EncRaise.v
theories/Encodable.v
theories/Extra.v
theories/ExtraProofs.v
theories/Gcm.v
theories/GcmProofs.v
theories/GcmProofs2.v
theories/GcmSpec.v
theories/HeaderProofs.v
theories/HistoryEx.v
theories/HistoryProofs.v
theories/Inst.v
theories/InteropProofs.v
theories/Json.v
theories/JsonGrammar.v
theories/JsonHdr.v
theories/JsonProofs.v
theories/JsonRaise.v
theories/JsonState.v
theories/Jwe.v
theories/JweEx.v
theories/JweLeak.v
theories/JweMsg.v
theories/JweProofs.v
theories/JweProofs10.v
theories/JweProofs11.v
theories/JweProofs12.v
theories/JweProofs13.v
theories/JweProofs14.v
theories/JweProofs15.v
theories/JweProofs16.v
theories/JweProofs17.v
theories/JweProofs2.v
theories/JweProofs3.v
theories/JweProofs4.v
theories/JweProofs5.v
theories/JweProofs6.v
theories/JweProofs7.v
theories/JweProofs8.v
theories/JweProofs9.v
theories/Jwk.v
theories/JwkEx.v
theories/JwkProofs.v
theories/JwkProofs2.v
theories/JwkProofs3.v
theories/Jws.v
theories/JwsEx.v
theories/JwsProofs.v
theories/JwsProofs10.v
theories/JwsProofs11.v
theories/JwsProofs2.v
theories/JwsProofs3.v
theories/JwsProofs4.v
theories/JwsProofs5.v
theories/JwsProofs6.v
theories/JwsProofs7.v
theories/JwsProofs8.v
theories/JwsProofs9.v
theories/Jwt.v
theories/JwtProofs.v
theories/JwtProofs2.v
theories/KeyRaise.v
theories/KeyWrap.v
theories/KeyWrapProofs.v
theories/KeyWrapProofs2.v
theories/KidProofs.v
theories/Lengths.v
theories/Lucas.v
theories/Members.v
theories/Misc.v
theories/Misc2.v
theories/Misc2Proofs.v
theories/MiscProofs.v
theories/Nested.v
theories/Nist.v
theories/OneKey.v
theories/OrderCheck.v
theories/Pbkdf2.v
theories/Pbkdf2Proofs.v
theories/Pbkdf2Proofs2.v
theories/Pock.v
theories/PockCheck.v
theories/Prims.v
theories/PropCodec.v
theories/PropEc.v
theories/PropJwe.v
theories/PropJwk.v
theories/PropJwk2.v
theories/PropJws.v
theories/PropJwt.v
theories/PropMisc.v
theories/PropMisc2.v
theories/PropMore.v
theories/PropMore10.v
theories/PropMore11.v
theories/PropMore12.v
theories/PropMore13.v
theories/PropMore14.v
theories/PropMore15.v
theories/PropMore16.v
theories/PropMore17.v
theories/PropMore18.v
theories/PropMore19.v
theories/PropMore2.v
theories/PropMore20.v
theories/PropMore21.v
theories/PropMore22.v
theories/PropMore23.v
theories/PropMore3.v
theories/PropMore4.v
theories/PropMore5.v
theories/PropMore6.v
theories/PropMore7.v
theories/PropMore8.v
theories/PropMore9.v
theories/PropPbkdf2.v
theories/PropScript.v
theories/PropSym.v
theories/PropText.v
theories/PvalEq.v
theories/RepoTests.v
theories/ReprProofs.v
theories/Rsa.v
theories/RsaProofs.v
theories/Script.v
theories/ScriptProofs.v
theories/ScriptProofs2.v
theories/ScriptProofs3.v
theories/SelfTest.v
theories/Sha.v
theories/SigShape.v
theories/SignJsonRaise.v
theories/SignRaise.v
theories/Sizes.v
theories/SmallProofs.v
theories/State.v
theories/StateProofs.v
theories/SymAux.v
theories/TextProofs.v
theories/TextProofs2.v
theories/ThumbProofs.v
theories/ThumbRaise.v
theories/TokTexts.v
theories/TokTexts2.v
theories/TwoTors.v
theories/TwoTors2.v
theories/TwoTors3.v
theories/Utf8.v
theories/Writable.v
theories/Zp.v
