-Q theories Verif
theories/Bytes.v
theories/BytesLemmas.v
theories/Outcome.v
theories/Base64.v
theories/Pae.v
theories/Prims.v
theories/Version.v
theories/Key.v
theories/Token.v
theories/Local.v
theories/Public.v
theories/Plaintext.v
theories/KeyId.v
theories/Wrap.v
theories/Pbkw.v
theories/Pke.v
theories/Serde.v
theories/SpecBase64.v
theories/SpecPaseto.v
theories/SpecPaserk.v
theories/SpecText.v
theories/SpecKey.v
theories/Base64Lemmas.v
theories/PaeLemmas.v
theories/TextLemmas.v
theories/TokenLemmas.v
theories/Observe.v
theories/CipherLemmas.v
theories/ToyAsym.v
theories/ToyLemmas.v
theories/Samples.v
theories/ProofsText.v
theories/PropertiesText.v
theories/ProofsLocal.v
theories/PropertiesLocal.v
theories/ProofsPublic.v
theories/PropertiesPublic.v
theories/ProofsKey.v
theories/PropertiesKey.v
theories/ProofsWrap.v
theories/PropertiesWrap.v
theories/ProofsMisc.v
theories/PropertiesMisc.v
theories/Json.v
theories/SpecJson.v
theories/JsonLemmas.v
theories/Fuzz.v
theories/ProofsFuzz.v
theories/PropertiesFuzz.v
theories/SpecSep.v
theories/ProofsExtra.v
theories/PropertiesExtra.v
theories/History.v
theories/Fmt.v
theories/AnyRng.v
theories/SpecEffects.v
theories/ProofsForge.v
theories/PropertiesForge.v
theories/SpecJsonDoc.v
theories/ProofsJsonDoc.v
theories/PropertiesJsonDoc.v
theories/SpecDetail.v
theories/ProofsDetail.v
theories/PropertiesDetail.v
theories/ConcreteSym.v
theories/ConcreteLemmas.v
theories/AesLemmas.v
theories/CurveWeak.v
theories/CurveAsym.v
theories/CurveLemmas.v
theories/VectorCheck.v
theories/VectorsLocal.v
theories/VectorsPublic3.v
theories/VectorsPublic4.v
theories/VectorsPaserk.v
theories/VectorsWrap.v
theories/VectorsFindings.v
theories/VectorsSeal.v
theories/VectorsPw.v
theories/ProofsInterop.v
theories/PropertiesInterop.v
theories/ProofsEffects.v
theories/PropertiesEffects.v
theories/SpecSystem.v
theories/ProofsSystem.v
theories/PropertiesSystem.v
theories/ProofsReal.v
theories/PropertiesReal.v
theories/Primes.v
theories/Edwards.v
theories/Field255.v
theories/CurveGroup.v
theories/Weierstrass.v
theories/Field384.v
theories/CurveGroup384.v
theories/RealLaws.v
theories/ProofsCurve.v
theories/PropertiesCurve.v
