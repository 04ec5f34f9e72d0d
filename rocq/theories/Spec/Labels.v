(* The enumerated fields of the code, with the function that prints each (the
   ToString method of the type, pkg/**/fields/*.go), sorted by the form their
   labels take.  All the enumerated types with a ToString method are listed
   once, but for ActiveRASense (see Proofs/Labels.v) and the addresses. *)
From Verif Require Import GoBase.
Require Import List String.
From Verif.Gen Require acas_ra_fields adsb adsb_airborne_position_fields adsb_surface_position_fields bds05_fields bds06_fields bds07_fields bds08_fields bds09_fields bds10_fields bds40_fields bds44_fields bds45_fields bds61_fields bds62_fields bds65_fields modes_common modes_fields.
Import ListNotations.
Local Open Scope Z_scope.

(* fields whose labels are "code - text" *)
Definition numbered_fields : list (string * (Z -> string)) :=
  [("acas_ra_fields.ThreatTypeIndicator"%string, acas_ra_fields.ThreatTypeIndicator_ToString);
   ("bds05_fields.AltitudeSource"%string, bds05_fields.AltitudeSource_ToString);
   ("bds05_fields.AltitudeReportMethod"%string, bds05_fields.AltitudeReportMethod_ToString);
   ("bds05_fields.CompactPositionReportingFormat"%string, bds05_fields.CompactPositionReportingFormat_ToString);
   ("bds05_fields.SingleAntennaFlag"%string, bds05_fields.SingleAntennaFlag_ToString);
   ("bds05_fields.SurveillanceStatus"%string, bds05_fields.SurveillanceStatus_ToString);
   ("bds05_fields.Time"%string, bds05_fields.Time_ToString);
   ("bds06_fields.CompactPositionReportingFormat"%string, bds06_fields.CompactPositionReportingFormat_ToString);
   ("bds06_fields.MovementStatus"%string, bds06_fields.MovementStatus_ToString);
   ("bds06_fields.Time"%string, bds06_fields.Time_ToString);
   ("bds07_fields.AltitudeTypeSubfield"%string, bds07_fields.AltitudeTypeSubfield_ToString);
   ("bds07_fields.TransmissionRateSubfield"%string, bds07_fields.TransmissionRateSubfield_ToString);
   ("bds08_fields.AircraftCategorySetA"%string, bds08_fields.AircraftCategorySetA_ToString);
   ("bds08_fields.AircraftCategorySetB"%string, bds08_fields.AircraftCategorySetB_ToString);
   ("bds08_fields.AircraftCategorySetC"%string, bds08_fields.AircraftCategorySetC_ToString);
   ("bds08_fields.AircraftCategorySetD"%string, bds08_fields.AircraftCategorySetD_ToString);
   ("bds09_fields.IFRCapability"%string, bds09_fields.IFRCapability_ToString);
   ("bds09_fields.IntentChange"%string, bds09_fields.IntentChange_ToString);
   ("bds09_fields.MagneticHeadingStatus"%string, bds09_fields.MagneticHeadingStatus_ToString);
   ("bds09_fields.Subtype"%string, bds09_fields.Subtype_ToString);
   ("bds09_fields.DirectionEastWest"%string, bds09_fields.DirectionEastWest_ToString);
   ("bds09_fields.DirectionNorthSouth"%string, bds09_fields.DirectionNorthSouth_ToString);
   ("bds09_fields.VerticalRateSource"%string, bds09_fields.VerticalRateSource_ToString);
   ("bds10_fields.ACASGenerationCapability"%string, bds10_fields.ACASGenerationCapability_ToString);
   ("bds10_fields.ACASHybridSurveillanceCapability"%string, bds10_fields.ACASHybridSurveillanceCapability_ToString);
   ("bds10_fields.ACASStatus"%string, bds10_fields.ACASStatus_ToString);
   ("bds10_fields.AircraftIdentificationCapability"%string, bds10_fields.AircraftIdentificationCapability_ToString);
   ("bds10_fields.CommonUsageGICBCapability"%string, bds10_fields.CommonUsageGICBCapability_ToString);
   ("bds10_fields.ContinuationFlag"%string, bds10_fields.ContinuationFlag_ToString);
   ("bds10_fields.DownlinkELMThroughputCapability"%string, bds10_fields.DownlinkELMThroughputCapability_ToString);
   ("bds10_fields.ModeSSpecificServicesCapability"%string, bds10_fields.ModeSSpecificServicesCapability_ToString);
   ("bds10_fields.OverlayCommandCapability"%string, bds10_fields.OverlayCommandCapability_ToString);
   ("bds10_fields.SquitterCapabilitySubfield"%string, bds10_fields.SquitterCapabilitySubfield_ToString);
   ("bds10_fields.SurveillanceIdentifierCode"%string, bds10_fields.SurveillanceIdentifierCode_ToString);
   ("bds10_fields.TransponderEnhancedProtocolIndicator"%string, bds10_fields.TransponderEnhancedProtocolIndicator_ToString);
   ("bds10_fields.UplinkELMThroughputCapability"%string, bds10_fields.UplinkELMThroughputCapability_ToString);
   ("bds40_fields.StatusOfModeBits"%string, bds40_fields.StatusOfModeBits_ToString);
   ("bds40_fields.StatusOfTargetAltitudeSource"%string, bds40_fields.StatusOfTargetAltitudeSource_ToString);
   ("bds40_fields.TargetAltitudeSource"%string, bds40_fields.TargetAltitudeSource_ToString);
   ("bds44_fields.Source"%string, bds44_fields.Source_ToString);
   ("bds44_fields.TurbulenceLevel"%string, bds44_fields.TurbulenceLevel_ToString);
   ("bds44_fields.TurbulenceFlag"%string, bds44_fields.TurbulenceFlag_ToString);
   ("bds45_fields.HazardLevel"%string, bds45_fields.HazardLevel_ToString);
   ("bds61_fields.EmergencyPriorityStatus"%string, bds61_fields.EmergencyPriorityStatus_ToString);
   ("bds61_fields.Subtype"%string, bds61_fields.Subtype_ToString);
   ("bds62_fields.CapabilityModeCode"%string, bds62_fields.CapabilityModeCode_ToString);
   ("bds62_fields.EmergencyPriorityStatus"%string, bds62_fields.EmergencyPriorityStatus_ToString);
   ("bds62_fields.HorizontalDataAvailableSourceIndicator"%string, bds62_fields.HorizontalDataAvailableSourceIndicator_ToString);
   ("bds62_fields.HorizontalModeIndicator"%string, bds62_fields.HorizontalModeIndicator_ToString);
   ("bds62_fields.NavigationalAccuracyCategoryPositionV1"%string, bds62_fields.NavigationalAccuracyCategoryPositionV1_ToString);
   ("bds62_fields.NavigationalAccuracyCategoryPositionV2"%string, bds62_fields.NavigationalAccuracyCategoryPositionV2_ToString);
   ("bds62_fields.NICBaro"%string, bds62_fields.NICBaro_ToString);
   ("bds62_fields.SelectedAltitudeType"%string, bds62_fields.SelectedAltitudeType_ToString);
   ("bds62_fields.SelectedHeadingStatus"%string, bds62_fields.SelectedHeadingStatus_ToString);
   ("bds62_fields.SourceIntegrityLevelSupplement"%string, bds62_fields.SourceIntegrityLevelSupplement_ToString);
   ("bds62_fields.StatusMCPFCUBits"%string, bds62_fields.StatusMCPFCUBits_ToString);
   ("bds62_fields.Subtype"%string, bds62_fields.Subtype_ToString);
   ("bds62_fields.TargetAltitudeCapability"%string, bds62_fields.TargetAltitudeCapability_ToString);
   ("bds62_fields.TargetAltitudeType"%string, bds62_fields.TargetAltitudeType_ToString);
   ("bds62_fields.TargetHeadingTrackIndicator"%string, bds62_fields.TargetHeadingTrackIndicator_ToString);
   ("bds62_fields.VerticalDataAvailableSourceIndicator"%string, bds62_fields.VerticalDataAvailableSourceIndicator_ToString);
   ("bds62_fields.VerticalModeIndicator"%string, bds62_fields.VerticalModeIndicator_ToString);
   ("bds65_fields.ACASOperational"%string, bds65_fields.ACASOperational_ToString);
   ("bds65_fields.ACASResolutionAdvisoryActiveV1"%string, bds65_fields.ACASResolutionAdvisoryActiveV1_ToString);
   ("bds65_fields.ACASResolutionAdvisoryActiveV2"%string, bds65_fields.ACASResolutionAdvisoryActiveV2_ToString);
   ("bds65_fields.AirReferencedVelocityReportCapability"%string, bds65_fields.AirReferencedVelocityReportCapability_ToString);
   ("bds65_fields.NotACASStatus"%string, bds65_fields.NotACASStatus_ToString);
   ("bds65_fields.CockpitDisplayOfTrafficInformationStatus"%string, bds65_fields.CockpitDisplayOfTrafficInformationStatus_ToString);
   ("bds65_fields.TargetStateReportCapability"%string, bds65_fields.TargetStateReportCapability_ToString);
   ("bds65_fields.TargetChangeReportCapability"%string, bds65_fields.TargetChangeReportCapability_ToString);
   ("bds65_fields.ExtendedSquitterIn"%string, bds65_fields.ExtendedSquitterIn_ToString);
   ("bds65_fields.UniversalAccessTransceiverCapability"%string, bds65_fields.UniversalAccessTransceiverCapability_ToString);
   ("bds65_fields.IdentSwitchActive"%string, bds65_fields.IdentSwitchActive_ToString);
   ("bds65_fields.SingleAntennaFlag"%string, bds65_fields.SingleAntennaFlag_ToString);
   ("bds65_fields.SystemDesignAssurance"%string, bds65_fields.SystemDesignAssurance_ToString);
   ("bds65_fields.ApproachLandingOperationalCapabilities"%string, bds65_fields.ApproachLandingOperationalCapabilities_ToString);
   ("bds65_fields.ApproachLandingOperationalCapabilityStatus"%string, bds65_fields.ApproachLandingOperationalCapabilityStatus_ToString);
   ("bds65_fields.B2Low"%string, bds65_fields.B2Low_ToString);
   ("bds65_fields.EnRouteOperationalCapabilities"%string, bds65_fields.EnRouteOperationalCapabilities_ToString);
   ("bds65_fields.EnRouteOperationalCapabilityStatus"%string, bds65_fields.EnRouteOperationalCapabilityStatus_ToString);
   ("bds65_fields.GPSAntennaLateral"%string, bds65_fields.GPSAntennaLateral_ToString);
   ("bds65_fields.GPSAntennaLongitudinal"%string, bds65_fields.GPSAntennaLongitudinal_ToString);
   ("bds65_fields.HorizontalReferenceDirection"%string, bds65_fields.HorizontalReferenceDirection_ToString);
   ("bds65_fields.LengthWidth"%string, bds65_fields.LengthWidth_ToString);
   ("bds65_fields.NavigationalAccuracyCategoryPositionV1"%string, bds65_fields.NavigationalAccuracyCategoryPositionV1_ToString);
   ("bds65_fields.NavigationalAccuracyCategoryPositionV2"%string, bds65_fields.NavigationalAccuracyCategoryPositionV2_ToString);
   ("bds65_fields.NICBaro"%string, bds65_fields.NICBaro_ToString);
   ("bds65_fields.ReceivingATCServices"%string, bds65_fields.ReceivingATCServices_ToString);
   ("bds65_fields.PositionOffsetApplied"%string, bds65_fields.PositionOffsetApplied_ToString);
   ("bds65_fields.SourceIntegrityLevel"%string, bds65_fields.SourceIntegrityLevel_ToString);
   ("bds65_fields.SourceIntegrityLevelSupplement"%string, bds65_fields.SourceIntegrityLevelSupplement_ToString);
   ("bds65_fields.Subtype"%string, bds65_fields.Subtype_ToString);
   ("bds65_fields.SurfaceOperationalCapabilities"%string, bds65_fields.SurfaceOperationalCapabilities_ToString);
   ("bds65_fields.SurfaceOperationalCapabilityStatus"%string, bds65_fields.SurfaceOperationalCapabilityStatus_ToString);
   ("bds65_fields.TerminalAreaOperationalCapabilities"%string, bds65_fields.TerminalAreaOperationalCapabilities_ToString);
   ("bds65_fields.TerminalAreaOperationalCapabilityStatus"%string, bds65_fields.TerminalAreaOperationalCapabilityStatus_ToString);
   ("bds65_fields.TrackAngleHeading"%string, bds65_fields.TrackAngleHeading_ToString);
   ("modes_fields.AltitudeReportMethod"%string, modes_fields.AltitudeReportMethod_ToString);
   ("modes_fields.ApplicationField"%string, modes_fields.ApplicationField_ToString);
   ("modes_fields.Capability"%string, modes_fields.Capability_ToString);
   ("modes_fields.ControlELM"%string, modes_fields.ControlELM_ToString);
   ("modes_fields.ControlField"%string, modes_fields.ControlField_ToString);
   ("modes_fields.CrossLinkCompatibility"%string, modes_fields.CrossLinkCompatibility_ToString);
   ("modes_fields.DownlinkRequest"%string, modes_fields.DownlinkRequest_ToString);
   ("modes_fields.FlightStatus"%string, modes_fields.FlightStatus_ToString);
   ("modes_fields.ReplyInformationAirAir"%string, modes_fields.ReplyInformationAirAir_ToString);
   ("modes_fields.SensitivityLevelReport"%string, modes_fields.SensitivityLevelReport_ToString);
   ("modes_fields.UtilityMessageIdentifierDesignator"%string, modes_fields.UtilityMessageIdentifierDesignator_ToString);
   ("modes_fields.VerticalStatus"%string, modes_fields.VerticalStatus_ToString)].

(* fields whose labels have that form, but some with the number of another code *)
Definition misnumbered_fields : list (string * (Z -> string)) :=
  [("bds09_fields.NavigationUncertaintyCategory"%string, bds09_fields.NavigationUncertaintyCategory_ToString);
   ("bds10_fields.ModeSSubnetworkVersion"%string, bds10_fields.ModeSSubnetworkVersion_ToString);
   ("bds62_fields.SourceIntegrityLevel"%string, bds62_fields.SourceIntegrityLevel_ToString);
   ("bds65_fields.GeometricVerticalAccuracy"%string, bds65_fields.GeometricVerticalAccuracy_ToString)].

(* fields whose labels have no number *)
Definition worded_fields : list (string * (Z -> string)) :=
  [("acas_ra_fields.ActiveRAPreventiveCorrective"%string, acas_ra_fields.ActiveRAPreventiveCorrective_ToString);
   ("acas_ra_fields.ActiveRAVerticalSpeedLimitOrPositive"%string, acas_ra_fields.ActiveRAVerticalSpeedLimitOrPositive_ToString);
   ("acas_ra_fields.MultipleThreatEncounter"%string, acas_ra_fields.MultipleThreatEncounter_ToString);
   ("acas_ra_fields.RATerminatedIndicator"%string, acas_ra_fields.RATerminatedIndicator_ToString);
   ("acas_ra_fields.AltitudeStatus"%string, acas_ra_fields.AltitudeStatus_ToString);
   ("acas_ra_fields.ThreatIdentityBearing"%string, acas_ra_fields.ThreatIdentityBearing_ToString);
   ("adsb.ADSBVersion"%string, adsb.ADSBVersion_ToString);
   ("adsb_airborne_position_fields.ContainmentRadius"%string, adsb_airborne_position_fields.ContainmentRadius_ToString);
   ("adsb_airborne_position_fields.HorizontalContainmentRadiusV1"%string, adsb_airborne_position_fields.HorizontalContainmentRadiusV1_ToString);
   ("adsb_airborne_position_fields.HorizontalContainmentRadiusV2"%string, adsb_airborne_position_fields.HorizontalContainmentRadiusV2_ToString);
   ("adsb_airborne_position_fields.HorizontalProtectionLimit"%string, adsb_airborne_position_fields.HorizontalProtectionLimit_ToString);
   ("adsb_airborne_position_fields.NavigationIntegrityCodeSupplementB"%string, adsb_airborne_position_fields.NavigationIntegrityCodeSupplementB_ToString);
   ("adsb_surface_position_fields.ContainmentRadius"%string, adsb_surface_position_fields.ContainmentRadius_ToString);
   ("adsb_surface_position_fields.HorizontalContainmentRadiusV1"%string, adsb_surface_position_fields.HorizontalContainmentRadiusV1_ToString);
   ("adsb_surface_position_fields.HorizontalContainmentRadiusV2"%string, adsb_surface_position_fields.HorizontalContainmentRadiusV2_ToString);
   ("adsb_surface_position_fields.HorizontalProtectionLimit"%string, adsb_surface_position_fields.HorizontalProtectionLimit_ToString);
   ("bds09_fields.NumericValueStatus"%string, bds09_fields.NumericValueStatus_ToString);
   ("bds10_fields.ACASApplicableDocument"%string, bds10_fields.ACASApplicableDocument_ToString);
   ("bds62_fields.NumericValueStatus"%string, bds62_fields.NumericValueStatus_ToString);
   ("bds62_fields.SurveillanceIntegrityLevel"%string, bds62_fields.SurveillanceIntegrityLevel_ToString);
   ("bds65_fields.NICSupplementA"%string, bds65_fields.NICSupplementA_ToString);
   ("bds65_fields.NICSupplementC"%string, bds65_fields.NICSupplementC_ToString);
   ("bds65_fields.SurveillanceIntegrityLevel"%string, bds65_fields.SurveillanceIntegrityLevel_ToString);
   ("bds65_fields.VersionNumber"%string, bds65_fields.VersionNumber_ToString)].

(* fields printed as a number *)
Definition decimal_fields : list (string * (Z -> string)) :=
  [("bds06_fields.EncodedLatitude"%string, bds06_fields.EncodedLatitude_ToString);
   ("bds06_fields.EncodedLongitude"%string, bds06_fields.EncodedLongitude_ToString);
   ("bds65_fields.NavigationAccuracyCategoryVelocity"%string, bds65_fields.NavigationAccuracyCategoryVelocity_ToString);
   ("modes_fields.NumberOfDSegment"%string, modes_fields.NumberOfDSegment_ToString)].
