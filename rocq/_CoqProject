-Q theories Verif
theories/Model/Analysis.v
theories/Model/BrainpoolSeeds.v
theories/Model/ChaCha.v
theories/Model/CmacSiv.v
theories/Model/Compare.v
theories/Model/Curves.v
theories/Model/Ecc.v
theories/Model/EdCurves.v
theories/Model/Encoding.v
theories/Model/GaloisField.v
theories/Model/Hmac.v
theories/Model/Michael.v
theories/Model/NumberTheory.v
theories/Model/Pi.v
theories/Model/PrimeTable.v
theories/Model/Py.v
theories/Model/SboxTables.v
theories/Model/Strings.v
theories/Proofs/AesProofs.v
theories/Proofs/AnalysisFacts.v
theories/Proofs/Bits.v
theories/Proofs/BooleanFacts.v
theories/Proofs/BrainpoolCerts.v
theories/Proofs/BrainpoolFacts.v
theories/Proofs/BrainpoolPi.v
theories/Proofs/Bridge.v
theories/Proofs/Carmichael.v
theories/Proofs/ChaChaFacts.v
theories/Proofs/ChaChaHist.v
theories/Proofs/ChaChaInv.v
theories/Proofs/ChaChaProofs.v
theories/Proofs/Cipolla.v
theories/Proofs/CmacSivFacts.v
theories/Proofs/CmacSivProofs.v
theories/Proofs/CompareFacts.v
theories/Proofs/Composite.v
theories/Proofs/Cong.v
theories/Proofs/ContribCurve.v
theories/Proofs/Contributory.v
theories/Proofs/Curve.v
theories/Proofs/CurveFacts.v
theories/Proofs/CurveOrder1.v
theories/Proofs/CurveOrder2.v
theories/Proofs/CurveOrder3.v
theories/Proofs/CurveOrder4.v
theories/Proofs/CurveOrder5.v
theories/Proofs/CurveOrder6.v
theories/Proofs/CurveOrder7.v
theories/Proofs/CurveParamFacts.v
theories/Proofs/CurveParams.v
theories/Proofs/CurveProg.v
theories/Proofs/CurveTable.v
theories/Proofs/Degree.v
theories/Proofs/DegreeCerts.v
theories/Proofs/ECGroup.v
theories/Proofs/EcCheck.v
theories/Proofs/EcTarget.v
theories/Proofs/EdCerts.v
theories/Proofs/EdCurveFacts.v
theories/Proofs/EdGroup.v
theories/Proofs/EdMap.v
theories/Proofs/EdOrder.v
theories/Proofs/EdgeFacts.v
theories/Proofs/EdwardsFacts.v
theories/Proofs/EncodingProofs.v
theories/Proofs/ExpValue.v
theories/Proofs/Factor.v
theories/Proofs/Fp.v
theories/Proofs/GfProofs.v
theories/Proofs/HmacFacts.v
theories/Proofs/HmacProofs.v
theories/Proofs/Isomorphism.v
theories/Proofs/Jacobi.v
theories/Proofs/Jacobian.v
theories/Proofs/KeyFacts.v
theories/Proofs/Ladder.v
theories/Proofs/Legendre.v
theories/Proofs/Limbs.v
theories/Proofs/MichaelChain.v
theories/Proofs/MichaelFacts.v
theories/Proofs/MichaelProofs.v
theories/Proofs/ModRep.v
theories/Proofs/MontAdd.v
theories/Proofs/MontFacts.v
theories/Proofs/Montgomery.v
theories/Proofs/NTBasic.v
theories/Proofs/NTFacts1.v
theories/Proofs/NTPoly.v
theories/Proofs/NTRange.v
theories/Proofs/NumberLaws.v
theories/Proofs/OrbitOrder.v
theories/Proofs/Orbits.v
theories/Proofs/OrderFacts.v
theories/Proofs/PiAtan.v
theories/Proofs/PiDigits.v
theories/Proofs/PiFacts.v
theories/Proofs/PiLimbs.v
theories/Proofs/PiValue.v
theories/Proofs/PockPower.v
theories/Proofs/Pocklington.v
theories/Proofs/PolyProofs.v
theories/Proofs/Primality.v
theories/Proofs/PrimeCert.v
theories/Proofs/PrimeChain.v
theories/Proofs/PrimeFacts.v
theories/Proofs/Pseudoprime.v
theories/Proofs/QuadRec.v
theories/Proofs/RabinMiller.v
theories/Proofs/SboxProg.v
theories/Proofs/ScalarCofactor.v
theories/Proofs/ScalarMul.v
theories/Proofs/SeedFacts.v
theories/Proofs/SivProofs.v
theories/Proofs/SortFacts.v
theories/Proofs/Sqrt.v
theories/Proofs/SqrtFacts.v
theories/Proofs/StringFacts.v
theories/Proofs/TableFacts.v
theories/Proofs/Tac.v
theories/Proofs/TkipProofs.v
theories/Proofs/UnitRoots.v
theories/Proofs/Universal.v
theories/Proofs/VectorCerts.v
theories/Proofs/VectorCurve.v
theories/Proofs/VectorFacts.v
theories/Proofs/Walsh.v
theories/Proofs/WalshProg.v
theories/Props/AnalysisProps.v
theories/Props/BooleanProps.v
theories/Props/BrainpoolProps.v
theories/Props/ChaChaProps.v
theories/Props/ChainProps.v
theories/Props/CmacSivProps.v
theories/Props/CompareProps.v
theories/Props/ContribProps.v
theories/Props/CurveParamProps.v
theories/Props/CurveProps.v
theories/Props/CurveTableProps.v
theories/Props/CurveVectorProps.v
theories/Props/EdCurveProps.v
theories/Props/EdMontProps.v
theories/Props/EdgeProps.v
theories/Props/EncodingProps.v
theories/Props/FactorProps.v
theories/Props/HmacProps.v
theories/Props/JacobiProps.v
theories/Props/KeyProps.v
theories/Props/MichaelProps.v
theories/Props/MontgomeryProps.v
theories/Props/NumberLawProps.v
theories/Props/NumberProps.v
theories/Props/PiProps.v
theories/Props/PrimeProps.v
theories/Props/SortProps.v
theories/Props/SqrtProps.v
theories/Props/StringProps.v
theories/Props/TableProps.v
theories/Props/UniversalProps.v
theories/Props/VectorProps.v
theories/Spec/AesSpec.v
theories/Spec/AnalysisSpec.v
theories/Spec/BrainpoolSpec.v
theories/Spec/ChaChaSpec.v
theories/Spec/CmacSivSpec.v
theories/Spec/CurveClasses.v
theories/Spec/CurveFamilies.v
theories/Spec/CurveSpec.v
theories/Spec/CurveVectorSpec.v
theories/Spec/CurveView.v
theories/Spec/EdwardsSpec.v
theories/Spec/EncodingSpec.v
theories/Spec/HmacSpec.v
theories/Spec/MichaelSpec.v
theories/Spec/MontgomerySpec.v
theories/Spec/NumberSpec.v
theories/Spec/SeedSpec.v
theories/Spec/SortSpec.v
theories/Spec/StringSpec.v
theories/Spec/VectorSpec.v
