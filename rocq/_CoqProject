-Q theories Verif
theories/Base.v
theories/Traits.v
theories/Common.v
theories/Oprf.v
theories/Voprf.v
theories/Poprf.v
theories/Serialization.v
theories/Laws.v
theories/Spec.v
theories/GroupFacts.v
theories/BytesFacts.v
theories/CommonFacts.v
theories/Fq.v
theories/Zq.v
theories/Fermat.v
theories/Pocklington.v
theories/HexNum.v
theories/PowCert.v
theories/CertOrders.v
theories/Primes.v
theories/OprfFacts.v
theories/VoprfFacts.v
theories/PoprfFacts.v
theories/PropCorrectness.v
theories/PropBatch.v
theories/SerializationFacts.v
theories/PropEncoding.v
theories/PropKeys.v
theories/PropSoundness.v
theories/PropPrivacy.v
theories/PropSerialization.v
theories/PropErrors.v
theories/Api.v
theories/PropApi.v
theories/Sessions.v
theories/PropSessions.v
theories/Drop.v
theories/Serde.v
theories/PropSerde.v
theories/PropDanger.v
theories/Reprogram.v
theories/PropSimulation.v
theories/Oracle.v
theories/RomFacts.v
theories/PropRom.v
theories/Guess.v
theories/PropUnpredict.v
theories/ZkFacts.v
theories/PropZk.v
theories/Xmd.v
theories/XmdSpec.v
theories/XmdFacts.v
theories/Ristretto.v
theories/RistrettoFacts.v
theories/EllipticCurve.v
theories/EllipticCurveFacts.v
theories/Weierstrass.v
theories/Cyclic.v
theories/NistSpec.v
theories/NistCurve.v
theories/NistFacts.v
theories/CubicRoot.v
theories/Chain.v
theories/Chain256.v
theories/Cert256.v
theories/Pow256.v
theories/Nist256.v
theories/CubicPoly.v
theories/Root384.v
theories/Cert384.v
theories/Pow384.v
theories/Chain384.v
theories/Nist384.v
theories/Cert521.v
theories/Pow521.v
theories/Chain521.v
theories/Nist521.v
theories/Edwards.v
theories/Rist255.v
theories/RistSpec.v
theories/RistFacts.v
theories/EChain.v
theories/Cert25519.v
theories/Pow25519.v
theories/Chain25519.v
theories/Rist25519.v
theories/Sha2.v
theories/PropGroups.v
theories/PropCanonical.v
theories/PropUniform.v
theories/Danger.v
theories/PropDangerApi.v
theories/SuiteRuns.v
theories/NistProps.v
theories/NistCheck.v
theories/PropNist.v
theories/PropNistCases.v
theories/PropNist384.v
theories/PropNistCases384.v
theories/PropNist521.v
theories/PropNistCases521.v
theories/RistProps.v
theories/RistCheck.v
theories/PropRist.v
theories/PropRistCases.v
theories/PropOblivious.v
theories/PropRomSuites.v
theories/PrfFacts.v
theories/PropPrf.v
theories/Iters.v
theories/PropIters.v
theories/PropUnlink.v
theories/Trace.v
theories/TraceFacts.v
theories/PropTrace.v
theories/PropCost.v
theories/Derives.v
theories/PropDerives.v
theories/PropOneMore.v
theories/PropSolver.v
theories/PropDerived.v
theories/PropCancel.v
theories/PropNumbers.v
theories/PropSeeded.v
theories/PropSeedNumbers.v
theories/PropZkNumbers.v
