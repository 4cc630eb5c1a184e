-Q theories Verif
theories/Lib/Num.v
theories/Lib/Monad.v
theories/Lib/RTac.v
theories/Lib/NTac.v
theories/Model/CoreUtility.v
theories/Model/CorePhysics.v
theories/Spec/Waves.v
theories/Proofs/Core.v
theories/Spec/Ranges.v
theories/Props/Core.v
theories/Model/Gerding1993.v
theories/Model/VanderMeer1998.v
theories/Model/VanGentVanderWerf2014.v
theories/Model/EtemadShahidi2021.v
theories/Model/Takahashi1990.v
theories/Proofs/CheckTac.v
theories/Proofs/Warns.v
theories/Props/ToeGerding.v
theories/Props/ToeVanderMeer.v
theories/Lib/Contraction.v
theories/Props/ToeEtemad.v
theories/Props/ToeVanGentVanderWerf.v
theories/Spec/Toe.v
theories/Spec/Dispersion.v
theories/Proofs/Dispersion.v
theories/Props/ToeTakahashi.v
theories/Lib/Str.v
theories/Lib/Table.v
theories/Model/Hudson1959.v
theories/Model/HudsonUnits.v
theories/Model/Cubes.v
theories/Model/Xbloc.v
theories/Spec/Armour.v
theories/Props/Hudson.v
theories/Props/ConcreteUnits.v
theories/Spec/Units.v
theories/Model/UnitProperties.v
theories/Spec/Rock.v
theories/Model/VanderMeer1988.v
theories/Model/VanderMeer1988Modified.v
theories/Proofs/VdM.v
theories/Props/RockVdM.v
theories/Model/EtemadShahidi2020.v
theories/Proofs/Etemad.v
theories/Props/RockEtemad.v
theories/Model/Jumelet2024.v
theories/Model/Scaravaglione2025.v
theories/Model/KramerBurcharth2004.v
theories/Props/RockJumelet.v
theories/Props/RockScaravaglione.v
theories/Props/RockKramer.v
theories/Props/CoreStability.v
theories/Spec/Runup.v
theories/Spec/Rear.v
theories/Model/VanGent2001.v
theories/Model/VanGent2002Velocity.v
theories/Model/RearVanGent2007.v
theories/Model/RearVanGentPozueta2004.v
theories/Proofs/Runup2001.v
theories/Proofs/RearSearch.v
theories/Props/RunupVanGent.v
theories/Props/RearVanGent.v
theories/Props/RearPozueta.v
theories/Spec/Transmission.v
theories/Model/Numpy.v
theories/Model/DAngremond1996.v
theories/Model/Briganti2003.v
theories/Model/Goda1967.v
theories/Model/VanGent2023.v
theories/Model/VanGent2024Setup.v
theories/Props/TransDAngremond.v
theories/Props/TransBriganti.v
theories/Props/TransGoda.v
theories/Props/TransVanGent.v
theories/Props/SetupVanGent.v
theories/Spec/Overtopping.v
theories/Model/DeRidder2024.v
theories/Model/DeRidder2026.v
theories/Proofs/Overtopping.v
theories/Props/OvertoppingDeRidder24.v
theories/Props/OvertoppingDeRidder26.v
theories/Model/VanGent2021Caisson.v
theories/Props/OvertoppingCaisson.v
theories/Model/VanGent2025.v
theories/Proofs/VanGent25.v
theories/Props/OvertoppingVanGent25.v
theories/Proofs/Wind.v
theories/Props/OvertoppingWind.v
theories/Lib/Integral.v
theories/Spec/Caisson.v
theories/Spec/Reports.v
theories/Model/Goda1985.v
theories/Proofs/Reports.v
theories/Proofs/Goda.v
theories/Props/CaissonGoda.v
theories/Spec/CrestWall.v
theories/Model/CrestWall2019.v
theories/Props/CrestWall.v
theories/Spec/Taw.v
theories/Model/RunupTAW2002.v
theories/Model/OvertoppingTAW2002.v
theories/Model/RunupEurotop2018.v
theories/Model/OvertoppingEurotop2007.v
theories/Model/OvertoppingEurotop2018.v
theories/Proofs/Taw.v
theories/Props/RunupTAW.v
theories/Props/RunupIteration.v
theories/Props/OvertoppingTAW.v
theories/Proofs/Weibull.v
theories/Props/RunupEurotop.v
theories/Props/OvertoppingEurotop07.v
theories/Props/BermProcedure.v
theories/Props/OvertoppingEurotop18.v
theories/Spec/Writers.v
theories/Model/Pandas.v
theories/Model/OvertoppingVanGent2007.v
theories/Model/OvertoppingDenBieman2021.v
theories/Props/Writers.v
theories/Props/RangesToe.v
theories/Props/RangesRock.v
theories/Props/RangesHydraulic.v
theories/Lib/Arr.v
theories/Lib/ArrLoop.v
theories/Lib/ArrFlags.v
theories/Spec/Arrays.v
theories/Spec/ArrayLoops.v
theories/Spec/ArrayFlags.v
theories/Spec/ArrayStacks.v
theories/Model/ArrCore.v
theories/Model/ArrVanderMeer1988.v
theories/Model/ArrVanderMeer1988Modified.v
theories/Model/ArrGerding1993.v
theories/Model/ArrVanderMeer1998.v
theories/Model/ArrVanGentVanderWerf2014.v
theories/Model/ArrScaravaglione2025.v
theories/Model/ArrHudson1959.v
theories/Model/ArrHudsonUnits.v
theories/Model/ArrCubes.v
theories/Model/ArrVanGent2001.v
theories/Model/ArrDAngremond1996.v
theories/Model/ArrVanGent2024Setup.v
theories/Model/ArrVanGent2002Velocity.v
theories/Model/ArrDeRidder2024.v
theories/Model/ArrDeRidder2026.v
theories/Model/ArrCrestWall2019.v
theories/Model/ArrVanGent2023.v
theories/Model/ArrKramerBurcharth2004.v
theories/Model/ArrEtemadShahidi2020.v
theories/Model/ArrJumelet2024.v
theories/Model/ArrRearVanGent2007.v
theories/Model/ArrRearVanGentPozueta2004.v
theories/Model/ArrEtemadShahidi2021.v
theories/Proofs/Arrays.v
theories/Proofs/ArrayLoops.v
theories/Proofs/ArraySearch.v
theories/Props/ArraysCore.v
theories/Props/ArraysRock.v
theories/Props/ArraysArmour.v
theories/Props/ArraysToe.v
theories/Props/ArraysHydraulic.v
theories/Props/ArraysWall.v
theories/Props/ArraysLimits.v
theories/Props/ArraysIteration.v
theories/Props/ArraysEtemad.v
theories/Props/ArraysEtemadLoops.v
theories/Props/ArraysRear.v
theories/Props/ArraysRearLoops.v
theories/Props/ArraysToeEtemad.v
theories/Model/ArrRunupTAW2002.v
theories/Model/ArrOvertoppingTAW2002.v
theories/Model/ArrOvertoppingEurotop2007.v
theories/Model/ArrRunupEurotop2018.v
theories/Model/ArrOvertoppingEurotop2018.v
theories/Proofs/ArrayFlags.v
theories/Proofs/ArrayTaw.v
theories/Proofs/ArrayTawDischarge.v
theories/Proofs/ArrayStacks.v
theories/Proofs/ArrayEurotop.v
theories/Props/ArraysRunupTAW.v
theories/Props/ArraysOvertoppingTAW.v
theories/Props/ArraysOvertoppingEurotop.v
theories/Props/ArraysRunupEurotop.v
theories/Spec/ArrayWarnings.v
theories/Proofs/ArrayWarnings.v
theories/Props/ArraysWarnings.v
theories/Spec/ArrayCalls.v
theories/Proofs/ArrayCalls.v
theories/Props/CallsRock.v
theories/Props/CallsArmour.v
theories/Props/CallsToe.v
theories/Props/CallsHydraulic.v
theories/Props/CallsWall.v
theories/Props/CallsRear.v
theories/Props/CallsEtemad.v
theories/Props/CallsToeEtemad.v
theories/Props/CallsExamples.v
theories/Spec/ArrayOne.v
theories/Model/ArrXbloc.v
theories/Model/ArrVanGent2021Caisson.v
theories/Proofs/ArrayOne.v
theories/Props/ArraysXbloc.v
theories/Props/ArraysCaisson.v
theories/Model/ArrVanGent2025.v
theories/Spec/ArrayWide.v
theories/Proofs/ArrayWide.v
theories/Props/ArraysVanGent2025.v
theories/Model/ArrGoda1985.v
theories/Spec/ArrayCaisson.v
theories/Proofs/ArrayCaisson.v
theories/Props/ArraysGoda.v
theories/Model/ArrTakahashi1990.v
theories/Props/ArraysTakahashi.v
theories/Props/UnitProperties.v
theories/Lib/Binary64.v
theories/Model/KD64.v
theories/Props/KD64.v
theories/Spec/ArrayReports.v
theories/Proofs/ArrayReports.v
theories/Proofs/ArrayReportsMore.v
theories/Props/ArraysReports.v
theories/Spec/Similarity.v
theories/Proofs/Similarity.v
theories/Proofs/SimilarityLoops.v
theories/Props/SimilarityStability.v
theories/Props/SimilarityHydraulic.v
theories/Props/SimilarityForces.v
theories/Props/SimilarityLimits.v
theories/Spec/Response.v
theories/Proofs/Response.v
theories/Props/ResponseEurotop.v
theories/Props/ResponseVanGent.v
theories/Props/ResponseFreeboard.v
theories/Proofs/Stones.v
theories/Props/ResponseArmour.v
theories/Props/ResponseUnits.v
theories/Props/ResponseToe.v
theories/Proofs/Loads.v
theories/Props/ResponseGoda.v
theories/Props/ResponseWall.v
theories/Props/ResponseRunup.v
theories/Props/ResponseTransmission.v
theories/Spec/CaissonWidth.v
theories/Props/CaissonWidth.v
theories/Model/Calling.v
theories/Spec/Calling.v
theories/Model/Signatures.v
theories/Spec/Documented.v
theories/Proofs/Calling.v
theories/Props/Signatures.v
theories/Spec/DocumentedNames.v
theories/Props/SignaturesDocs.v
theories/Spec/Missing.v
theories/Proofs/Missing.v
theories/Props/Missing.v
theories/Props/MissingRock.v
theories/Props/MissingOvertopping.v
theories/Props/MissingTAW.v
theories/Props/MissingSearches.v
theories/Props/MissingGoda.v
theories/Props/MissingRefuted.v
theories/Spec/Numbers.v
theories/Proofs/Numbers.v
theories/Props/NumbersHydraulic.v
theories/Props/NumbersStability.v
theories/Props/NumbersExact.v
theories/Spec/StillWater.v
theories/Proofs/StillWater.v
theories/Props/StillWater.v
theories/Props/StillWaterExact.v
theories/Spec/Searching.v
theories/Proofs/Searching.v
theories/Props/Searching.v
theories/Spec/Steps.v
theories/Proofs/Steps.v
theories/Props/Steps.v
theories/Spec/FarOut.v
theories/Proofs/FarOut.v
theories/Props/FarOut.v
theories/Props/Assumptions.v
