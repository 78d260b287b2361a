-Q theories Verif
theories/Base.v
theories/Leqb.v
theories/Vlong.v
theories/VlongLemmas.v
theories/VlongDivLemmas.v
theories/VlongMulLemmas.v
theories/PropVlong.v
theories/Der.v
theories/DerLemmas.v
theories/DerLemmas2.v
theories/PropDer.v
theories/Hash.v
theories/HashSpec.v
theories/Blocks.v
theories/HashLemmas.v
theories/MdLemmas.v
theories/PropHash.v
theories/Sponge.v
theories/SpongeSpec.v
theories/KeccakLemmas.v
theories/SpongeLemmas.v
theories/KmacLemmas.v
theories/PropSponge.v
theories/HashIface.v
theories/Mac.v
theories/MacSpec.v
theories/MacLemmas.v
theories/CmacLemmas.v
theories/PropMac.v
theories/Cipher.v
theories/CipherSpec.v
theories/CipherLemmas.v
theories/CipherLemmas2.v
theories/CipherLemmas3.v
theories/CipherLemmas4.v
theories/PropCipher.v
theories/PkcsSpec.v
theories/Pkcs1.v
theories/PkcsLemmas.v
theories/PkcsLemmas2.v
theories/PkcsLemmas3.v
theories/PropPkcs1.v
theories/GcmSpec.v
theories/Gcm.v
theories/GaloisLemmas.v
theories/GcmLemmas.v
theories/PropAead.v
theories/ChaChaSpec.v
theories/ChaCha.v
theories/PolyLemmas.v
theories/ChaChaLemmas.v
theories/PropChaCha.v
theories/CcmSpec.v
theories/Ccm.v
theories/CcmLemmas.v
theories/PropCcm.v
theories/CtrDrbgSpec.v
theories/CtrDrbg.v
theories/CtrDrbgLemmas.v
theories/PropCtrDrbg.v
theories/BlakeSpec.v
theories/Blake2.v
theories/Blake2Lemmas.v
theories/PropBlake2.v
theories/TCrew.v
theories/TCrewLemmas.v
theories/PropTCrew.v
theories/NumTheory.v
theories/NumLemmas.v
theories/Fermat.v
theories/Rsa.v
theories/RsaLemmas.v
theories/RsaKeyLemmas.v
theories/RsaGenLemmas.v
theories/RsaSpec.v
theories/MillerRabin.v
theories/MillerRabinSpec.v
theories/MillerRabinLemmas.v
theories/PropRsa.v
theories/EcMod.v
theories/EcModLemmas.v
theories/EcFieldLemmas.v
theories/EcExpLemmas.v
theories/EcCurveLemmas.v
theories/PropEcField.v
theories/EcSpec.v
theories/EcGroupLemmas.v
theories/EcpXyz.v
theories/EcpLemmas.v
theories/ScaleLemmas.v
theories/EcLawLemmas.v
theories/EcAssocLemmas.v
theories/EcpScaleLemmas.v
theories/EcWideLemmas.v
theories/PropEcp.v
theories/EcMulLemmas.v
theories/Ecc.v
theories/EccSpec.v
theories/EccLemmas.v
theories/EccSigLemmas.v
theories/EccZeroLemmas.v
theories/EccCodecSpec.v
theories/EccCodecLemmas.v
theories/EccRunLemmas.v
theories/PropEcc.v
theories/PropEccSig.v
theories/EdCert.v
theories/EdSpec.v
theories/EcEd.v
theories/EdGroupLemmas.v
theories/EdLemmas.v
theories/EdScaleLemmas.v
theories/EdCompleteLemmas.v
theories/PropEd.v
theories/EcMt.v
theories/MtSpec.v
theories/EcMtLemmas.v
theories/MtLadderLemmas.v
theories/MtAgreeLemmas.v
theories/OctetLemmas.v
theories/PropXecdh.v
theories/Pocklington.v
theories/CurvePrimes.v
theories/EddsaSpec.v
theories/EdDsa.v
theories/EdDsaLemmas.v
theories/EdDsaDecLemmas.v
theories/EdDsaPointLemmas.v
theories/EdMulLemmas.v
theories/EdDsaSigLemmas.v
theories/OrderPrimes.v
theories/EdOrder.v
theories/EdDsaRfcLemmas.v
theories/PropEddsa.v
theories/RsaEs.v
theories/RsaEsSpec.v
theories/RsaEsLemmas.v
theories/RsaEsRunLemmas.v
theories/RsaEsEncLemmas.v
theories/PropRsaEs.v
theories/Blake3Spec.v
theories/Blake3.v
theories/Blake3Lemmas.v
theories/Blake3TreeLemmas.v
theories/Blake3NodeLemmas.v
theories/Blake3ClimbLemmas.v
theories/Blake3RunLemmas.v
theories/Blake3FinalLemmas.v
theories/PropBlake3.v
theories/K12Spec.v
theories/K12.v
theories/K12Lemmas.v
theories/K12FinalLemmas.v
theories/PropK12.v
theories/RsaDerSpec.v
theories/RsaDer.v
theories/RsaDerLemmas.v
theories/RsaDerLemmas2.v
theories/RsaDerLemmas3.v
theories/PropRsaDer.v
theories/DssCodec.v
theories/PropDss.v
theories/Sm2Z.v
theories/PropSm2Z.v
theories/KeyCodec.v
theories/PropKeyCodec.v
theories/RsaSign.v
theories/RsaSignLemmas.v
theories/PropRsaSign.v
theories/AesSpec2.v
theories/AesNi.v
theories/PropAesNi.v
theories/GaloisNi.v
theories/GaloisNiLemmas.v
theories/PropGaloisNi.v
theories/ShaIsa.v
theories/ShaNi.v
theories/ShaNiLemmas.v
theories/ShaNiSteps.v
theories/PropShaNi.v
theories/Sm4Spec.v
theories/NeonNi.v
theories/NeonNiLemmas.v
theories/PropNeonNi.v
