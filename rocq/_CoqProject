-Q theories Verif
theories/Base.v
theories/Sha2.v
theories/Str.v
theories/Unicode.v
theories/UnicodeTables.v
theories/UnicodeProofs.v
theories/BitAcc.v
theories/Language39.v
theories/Mnemonic39.v
theories/BuildScript39.v
theories/Words_english.v
theories/Words_chinese_simplified.v
theories/Words_chinese_traditional.v
theories/Words_czech.v
theories/Words_french.v
theories/Words_italian.v
theories/Words_japanese.v
theories/Words_korean.v
theories/Words_portuguese.v
theories/Words_spanish.v
theories/Spec39.v
theories/BitsProofs.v
theories/StrProofs.v
theories/EncProofs.v
theories/DecProofs.v
theories/Utf8Proofs.v
theories/Builtin39.v
theories/LangSpec39.v
theories/LangProofs.v
theories/MnemonicProofs.v
theories/ChecksumProofs.v
theories/QueueSpec39.v
theories/ExtraProofs39.v
theories/Eqb39.v
theories/Props39.v
theories/Fuzz39.v
theories/Props39f.v
theories/Props39u.v
theories/Vectors39.v
theories/VectorSeed39.v
theories/VectorsWords39.v
theories/Error32.v
theories/Path32.v
theories/PathSpec32.v
theories/PathProofs32.v
theories/Version32.v
theories/Ripemd.v
theories/Base58.v
theories/Base58Spec.v
theories/Base58Proofs.v
theories/Meta32.v
theories/Payload32.v
theories/PayloadSpec32.v
theories/PayloadProofs32.v
theories/Curve32.v
theories/XKey32.v
theories/Slip10.v
theories/Eqb32.v
theories/Props32.v
theories/XKeySpec32.v
theories/Cyclic32.v
theories/XKeyProofs32.v
theories/SlipProofs32.v
theories/Props32k.v
theories/Props32s.v
theories/Weierstrass.v
theories/Primes.v
theories/PrimeCerts.v
theories/Fp.v
theories/ShortCurve.v
theories/CurveCert.v
theories/CurveSpec.v
theories/CurveProofs.v
theories/Secp256k1.v
theories/Nist256p1.v
theories/PointCerts.v
theories/Vectors32.v
theories/Props32c.v
theories/Fuzz32.v
theories/Props32f.v
theories/Edwards.v
theories/PrimeCertsEd.v
theories/EdCurve.v
theories/EdCert.v
theories/Ed25519.v
theories/Dalek25519.v
theories/EdSpec.v
theories/Props32e.v
theories/Props32x.v
theories/Props32y.v
theories/Props3932.v
theories/Props39e.v
theories/Generate39.v
theories/GenSpec39.v
theories/GenProofs39.v
theories/Props39g.v
theories/Props32d.v
theories/Compare39.v
theories/Props39q.v
theories/VectorsEd32.v
theories/Memory39.v
theories/MemProofs39.v
theories/Props39m.v
theories/Props32r.v
theories/Memory32.v
theories/Props32m.v
theories/Stream.v
theories/StreamProofs.v
theories/Props32h.v
theories/Derive32.v
theories/Traits32.v
theories/Props32t.v
theories/Props32p.v
theories/FmtDebug.v
theories/FmtProofs.v
theories/DebugImpls.v
theories/Props32b.v
theories/Props32v.v
theories/Locals32.v
theories/Props32l.v
theories/Once32.v
theories/OnceProofs32.v
theories/Props32o.v
theories/Locals39.v
theories/Props39l.v
theories/UnitTests.v
theories/Props39r.v
theories/Bench39.v
theories/Bench32.v
theories/PropsBench.v
theories/Trace39.v
theories/Props39t.v
theories/ErrorChain32.v
theories/Props32w.v
theories/Trace32.v
theories/Props32z.v
theories/Access32.v
theories/Props32a.v
theories/Props39a.v
theories/Hash39.v
theories/Props39h.v
theories/Props32q.v
theories/Props32n.v
theories/FuzzApi.v
theories/PropsFuzz.v
theories/PropsFuzzb.v
theories/PropsErr.v
theories/PropsWallet.v
theories/PropsWallet10.v
theories/PropsWalletR.v
theories/Session32.v
theories/PropsSession.v
theories/RustSyntax.v
theories/RustSource.v
theories/RustEval.v
theories/RustExec.v
theories/SourceProofs.v
theories/SourceProofs2.v
theories/SourceProofs3.v
theories/SourceProofs4.v
theories/PropsSource.v
theories/RustSource32.v
theories/SourcePath.v
theories/SourcePath2.v
theories/PropsSource32.v
theories/PropsRipemd.v
theories/RustSourceErr.v
theories/PropsSourceErr.v
