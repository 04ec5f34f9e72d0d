-Q theories Verif

theories/GoBase.v
theories/Bits.v
theories/Gen/acas_ra.v
theories/Gen/acas_ra_fields.v
theories/Gen/adsb.v
theories/Gen/adsb_airborne_position.v
theories/Gen/adsb_airborne_position_fields.v
theories/Gen/adsb_airborne_velocity.v
theories/Gen/adsb_aircraft_identification_and_category.v
theories/Gen/adsb_aircraft_operational_status.v
theories/Gen/adsb_aircraft_status.v
theories/Gen/adsb_no_position_information.v
theories/Gen/adsb_surface_position.v
theories/Gen/adsb_surface_position_fields.v
theories/Gen/adsb_target_state_and_status.v
theories/Gen/bds00.v
theories/Gen/bds05.v
theories/Gen/bds05_fields.v
theories/Gen/bds06.v
theories/Gen/bds06_fields.v
theories/Gen/bds07.v
theories/Gen/bds07_fields.v
theories/Gen/bds08.v
theories/Gen/bds08_fields.v
theories/Gen/bds09.v
theories/Gen/bds09_fields.v
theories/Gen/bds10.v
theories/Gen/bds10_fields.v
theories/Gen/bds17.v
theories/Gen/bds20.v
theories/Gen/bds30.v
theories/Gen/bds40.v
theories/Gen/bds40_fields.v
theories/Gen/bds44.v
theories/Gen/bds44_fields.v
theories/Gen/bds45.v
theories/Gen/bds45_fields.v
theories/Gen/bds50.v
theories/Gen/bds50_fields.v
theories/Gen/bds60.v
theories/Gen/bds60_fields.v
theories/Gen/bds61.v
theories/Gen/bds61_fields.v
theories/Gen/bds62.v
theories/Gen/bds62_fields.v
theories/Gen/bds65.v
theories/Gen/bds65_fields.v
theories/Gen/bds_encoding.v
theories/Gen/bds_register.v
theories/Gen/bitutils.v
theories/Gen/modes_common.v
theories/Gen/modes_fields.v
theories/Gen/modes_messages.v
theories/Model/AdsbReader.v
theories/Model/Cmd.v
theories/Model/Main.v
theories/Model/ParseInt.v
theories/Model/Memory.v
theories/Model/MemoryCode.v
theories/Spec/Calls.v
theories/Proofs/MemoryLogic.v
theories/Proofs/MemoryRules.v
theories/Proofs/MemoryCalls.v
theories/Proofs/Concurrent.v
theories/Model/CommbReader.v
theories/Model/Crc.v
theories/Model/ModesReader.v
theories/Spec/Altitude.v
theories/Proofs/Tac.v
theories/Proofs/Gillham.v
theories/Spec/ModeS.v
theories/Spec/Crc.v
theories/Proofs/CrcPoly.v
theories/Proofs/CrcCode.v
theories/Proofs/ModesFields.v
theories/Proofs/ModeSReader.v
theories/Proofs/CrcDistance.v
theories/Proofs/CrcReader.v
theories/Spec/Floats.v
theories/Spec/Adsb.v
theories/Proofs/Adsb0506.v
theories/Spec/Identification.v
theories/Spec/Velocity.v
theories/Spec/Acas.v
theories/Spec/Status.v
theories/Spec/AdsbMessages.v
theories/Spec/CommB.v
theories/Spec/CommBMessages.v
theories/Proofs/Ident.v
theories/Proofs/VelocityReader.v
theories/Proofs/AcasReader.v
theories/Proofs/Status65.v
theories/Proofs/Octets.v
theories/Proofs/Status61.v
theories/Proofs/Status62.v
theories/Proofs/AdsbApi.v
theories/Proofs/CommB1.v
theories/Proofs/CommB2.v
theories/Proofs/CommB3.v
theories/Proofs/CommBApi.v
theories/Proofs/FloatR.v
theories/Proofs/GroundSpeed.v
theories/Spec/Binary64.v
theories/Spec/Cpr.v
theories/Model/Geo.v
theories/Model/GeoReal.v
theories/Proofs/FloatOps.v
theories/Proofs/CprFloat.v
theories/Proofs/CprReal.v
theories/Proofs/CprGlobal.v
theories/Spec/Geodesy.v
theories/Proofs/CprLocal.v
theories/Proofs/CprSurface.v
theories/Proofs/CprWitness.v
theories/Proofs/GeoReals.v
theories/Proofs/Atan2.v
theories/Spec/Text.v
theories/Spec/Labels.v
theories/Spec/Command.v
theories/Spec/CommandLine.v
theories/Spec/Integer.v
theories/Proofs/Labels.v
theories/Proofs/Texts.v
theories/Proofs/Command.v
theories/Proofs/CommandLine.v
theories/Proofs/IntegerText.v
theories/Proofs/Level.v
theories/Spec/MathLib.v
theories/Proofs/ZonesReal.v
theories/Proofs/ZonesFloat.v
theories/Proofs/CprAccurate.v
theories/Proofs/IdealLib.v
theories/Proofs/DistanceFloat.v
theories/Spec/Accessors.v
theories/Proofs/Accessors.v
theories/Proofs/CommB4.v
theories/Proofs/Coherence.v
theories/Proofs/UnitTests.v
theories/Spec/Report.v
theories/Spec/Reasons.v
theories/Spec/Reports.v
theories/Proofs/ReportTools.v
theories/Proofs/Reports.v
theories/Proofs/Reports2.v
theories/Proofs/ReportsApi.v
theories/Spec/CommBReasons.v
theories/Spec/Track.v
theories/Spec/Squitter.v
theories/Spec/Reply.v
theories/Proofs/Reasons.v
theories/Proofs/FloatCompare.v
theories/Proofs/CommBReasons.v
theories/Proofs/Track.v
theories/Proofs/Squitter.v
theories/Proofs/EndToEnd.v
theories/Proofs/Reply.v
theories/Proofs/Registers.v
theories/Proofs/ReportsModeS.v
theories/Proofs/Examples.v
theories/Proofs/ExamplesAdsb.v
theories/Proofs/ExamplesCommB.v
theories/Proofs/ExamplesGeo.v
theories/Spec/Printout.v
theories/Proofs/Printout.v
theories/Proofs/PrintoutApi.v
theories/Proofs/CprMoving.v
theories/Proofs/Moving.v
theories/Spec/Noise.v
theories/Proofs/Noise.v
theories/Spec/Payloads.v
theories/Proofs/Payloads.v
theories/Proofs/Registers2.v
theories/Spec/Statuses.v
theories/Proofs/Statuses.v
theories/Spec/Frames.v
theories/Proofs/Frames.v
theories/Proofs/FramesApi.v
theories/Spec/Departures.v
theories/Proofs/Departures.v
theories/Spec/ZoneTable.v
theories/Proofs/ZoneTable.v
theories/Spec/Meanings.v
theories/Proofs/Meanings.v
theories/Spec/Lossless.v
theories/Proofs/Lossless.v
theories/Proofs/GeoTests.v
theories/Spec/Precise.v
theories/Proofs/Equator.v
theories/Proofs/EquatorApi.v
theories/Spec/Sent.v
theories/Proofs/ZonesFine.v
theories/Proofs/ZonesGrid.v
theories/Proofs/Everywhere.v
theories/Proofs/EverywhereApi.v
theories/Proofs/Ground.v
theories/Proofs/GroundApi.v
theories/Spec/Flight.v
theories/Proofs/Flight.v
theories/Proofs/FlightGround.v
theories/Spec/Missing.v
theories/Proofs/Missing.v
theories/Spec/Session.v
theories/Proofs/Session.v
theories/Spec/Receiver.v
theories/Proofs/Receiver.v
theories/Spec/Radar.v
theories/Proofs/Radar.v
theories/Spec/Said.v
theories/Proofs/Said.v
theories/Spec/Answers.v
theories/Proofs/Answers.v
theories/Spec/Order.v
theories/Proofs/Order.v
theories/Proofs/OrderPositions.v
theories/Proofs/EmergencyText.v
theories/Proofs/TextsExact.v
theories/Spec/Alike.v
theories/Proofs/Alike.v
theories/Proofs/SameText.v
theories/Properties/ModeS.v
theories/Properties/Crc.v
theories/Properties/Adsb.v
theories/Properties/CommB.v
theories/Properties/Geo.v
theories/Properties/GeoAccurate.v
theories/Properties/Geodesy.v
theories/Properties/Text.v
theories/Properties/Access.v
theories/Properties/Main.v
theories/Properties/Report.v
theories/Properties/Reason.v
theories/Properties/CommBReason.v
theories/Properties/Track.v
theories/Properties/Squitter.v
theories/Properties/Reply.v
theories/Properties/Concurrent.v
theories/Properties/Printout.v
theories/Properties/Noise.v
theories/Properties/Payload.v
theories/Properties/Statuses.v
theories/Properties/Frames.v
theories/Properties/Departures.v
theories/Properties/ZoneTable.v
theories/Properties/Meanings.v
theories/Properties/Lossless.v
theories/Properties/Equator.v
theories/Properties/Everywhere.v
theories/Properties/Flight.v
theories/Properties/Missing.v
theories/Properties/Session.v
theories/Properties/Receiver.v
theories/Properties/Ground.v
theories/Properties/Radar.v
theories/Properties/Said.v
theories/Properties/Answers.v
theories/Properties/Order.v
theories/Properties/OrderPositions.v
theories/Properties/Alike.v
