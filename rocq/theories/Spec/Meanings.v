(* What the codes of the enumerated fields mean (Annex 10 vol. IV, Doc 9871, DO-260B), in the wording of
   the library: for each field, the function that prints it, and the meaning of each code the standard
   defines. *)
From Verif Require Import GoBase.
Require Import List String.
From Verif.Gen Require acas_ra_fields adsb adsb_airborne_position_fields adsb_surface_position_fields bds05_fields bds06_fields bds07_fields bds08_fields bds09_fields bds10_fields bds40_fields bds44_fields bds45_fields bds61_fields bds62_fields bds65_fields modes_fields.
From Verif.Spec Require Import Text.
Import ListNotations.
Local Open Scope string_scope.
Local Open Scope list_scope.
Local Open Scope Z_scope.

(* the text after the number of the code *)
Definition named : list (string * (Z -> string) * list (Z * string)) :=
  [("acas_ra_fields.ThreatTypeIndicator", acas_ra_fields.ThreatTypeIndicator_ToString,
     [(0, "No identity data in TID");
      (1, "TID contains a Mode S transponder address");
      (2, "TID contains altitude, range and bearing data");
      (3, "Not assigned")]);
   ("bds05_fields.AltitudeSource", bds05_fields.AltitudeSource_ToString,
     [(0, "Barometric");
      (1, "GNSS")]);
   ("bds05_fields.AltitudeReportMethod", bds05_fields.AltitudeReportMethod_ToString,
     [(0, "100 Foot Increments");
      (1, "25 Foot Increments")]);
   ("bds05_fields.CompactPositionReportingFormat", bds05_fields.CompactPositionReportingFormat_ToString,
     [(0, "even format coding");
      (1, "odd format coding")]);
   ("bds05_fields.SingleAntennaFlag", bds05_fields.SingleAntennaFlag_ToString,
     [(0, "dual transmit antenna system");
      (1, "single transmit antenna system")]);
   ("bds05_fields.SurveillanceStatus", bds05_fields.SurveillanceStatus_ToString,
     [(0, "no status information");
      (1, "permanent alert condition");
      (2, "temporary alert condition");
      (3, "SPI condition")]);
   ("bds05_fields.Time", bds05_fields.Time_ToString,
     [(0, "not synchronized to UTC");
      (1, "synchronized to UTC")]);
   ("bds06_fields.CompactPositionReportingFormat", bds06_fields.CompactPositionReportingFormat_ToString,
     [(0, "even format coding");
      (1, "odd format coding")]);
   ("bds06_fields.Time", bds06_fields.Time_ToString,
     [(0, "not synchronized to UTC");
      (1, "synchronized to UTC")]);
   ("bds07_fields.AltitudeTypeSubfield", bds07_fields.AltitudeTypeSubfield_ToString,
     [(0, "Barometric altitude");
      (1, "GNSS height (HAE)")]);
   ("bds07_fields.TransmissionRateSubfield", bds07_fields.TransmissionRateSubfield_ToString,
     [(1, "High surface squitter rate selected");
      (2, "Low surface squitter rate selected")]);
   ("bds08_fields.AircraftCategorySetA", bds08_fields.AircraftCategorySetA_ToString,
     [(0, "No aircraft category information");
      (1, "Light (< 15_500 lbs or 7_031 kg)");
      (2, "Medium 1 (>15_500 to 75_000 lbs, or 7_031 to 34_019 kg)");
      (3, "Medium 2 (>75_000 to 300_000 lbs, or 34_019 to 136_078 kg)");
      (4, "High vortex aircraft");
      (5, "Heavy (> 300_000 lbs or 136_078 kg)");
      (6, "High performance (> 5g acceleration) and high speed (> 400 kt)");
      (7, "Rotorcraft")]);
   ("bds08_fields.AircraftCategorySetB", bds08_fields.AircraftCategorySetB_ToString,
     [(0, "No aircraft category information");
      (1, "Glider / sailplane");
      (2, "Lighter-than-air");
      (3, "Parachutist / skydiver");
      (4, "Ultralight / hang-glider / paraglider");
      (5, "Reserved");
      (6, "Unmanned aerial vehicle");
      (7, "Space / transatmospheric vehicle")]);
   ("bds08_fields.AircraftCategorySetC", bds08_fields.AircraftCategorySetC_ToString,
     [(0, "No aircraft category information");
      (1, "Surface vehicle - emergency vehicle");
      (2, "Surface vehicle - service vehicle");
      (3, "Fixed ground or tethered obstruction");
      (4, "Reserved");
      (5, "Reserved");
      (6, "Reserved");
      (7, "Reserved")]);
   ("bds08_fields.AircraftCategorySetD", bds08_fields.AircraftCategorySetD_ToString,
     [(0, "Reserved");
      (1, "Reserved");
      (2, "Reserved");
      (3, "Reserved");
      (4, "Reserved");
      (5, "Reserved");
      (6, "Reserved");
      (7, "Reserved")]);
   ("bds09_fields.IFRCapability", bds09_fields.IFRCapability_ToString,
     [(0, "transmitting aircraft has no capability for ADS-B based conflict detection or higher level (class A1 or above) applications");
      (1, "transmitting aircraft has capability for ADS-B-based conflict detection and higher level (class A1 or above) applications")]);
   ("bds09_fields.IntentChange", bds09_fields.IntentChange_ToString,
     [(0, "no change in intent");
      (1, "intent change")]);
   ("bds09_fields.MagneticHeadingStatus", bds09_fields.MagneticHeadingStatus_ToString,
     [(0, "Magnetic heading not available");
      (1, "Magnetic heading available")]);
   ("bds09_fields.NavigationUncertaintyCategory", bds09_fields.NavigationUncertaintyCategory_ToString,
     [(0, "Unknown ");
      (1, "Horizontal Velocity Error (95%): < 10 m/s / Vertical Velocity Error (95%): < 15.2 m/s (50 fps)")]);
   ("bds09_fields.Subtype", bds09_fields.Subtype_ToString,
     [(1, "GroundSpeed / Normal");
      (2, "GroundSpeed / Supersonic");
      (3, "Airspeed,Heading / Normal");
      (4, "Airspeed,Heading / Supersonic")]);
   ("bds09_fields.DirectionEastWest", bds09_fields.DirectionEastWest_ToString,
     [(0, "East");
      (1, "West")]);
   ("bds09_fields.DirectionNorthSouth", bds09_fields.DirectionNorthSouth_ToString,
     [(0, "north");
      (1, "south")]);
   ("bds09_fields.VerticalRateSource", bds09_fields.VerticalRateSource_ToString,
     [(0, "GNSS");
      (1, "Baro")]);
   ("bds10_fields.ACASGenerationCapability", bds10_fields.ACASGenerationCapability_ToString,
     [(0, "The ACAS is generating TAs only");
      (1, "The ACAS is generating both TAs and RAs")]);
   ("bds10_fields.ACASHybridSurveillanceCapability", bds10_fields.ACASHybridSurveillanceCapability_ToString,
     [(0, "No capability of hybrid surveillance");
      (1, "Capability of hybrid surveillance")]);
   ("bds10_fields.ACASStatus", bds10_fields.ACASStatus_ToString,
     [(0, "ACAS Failed or On Standby");
      (1, "ACAS Operational")]);
   ("bds10_fields.AircraftIdentificationCapability", bds10_fields.AircraftIdentificationCapability_ToString,
     [(0, "Aircraft Identification is coming through ADLP");
      (1, "Aircraft Identification is coming through a separate interface")]);
   ("bds10_fields.CommonUsageGICBCapability", bds10_fields.CommonUsageGICBCapability_ToString,
     [(0, "The common usage GICB capability report (register 17) is unchange");
      (1, "The common usage GICB capability report (register 17) changed")]);
   ("bds10_fields.ContinuationFlag", bds10_fields.ContinuationFlag_ToString,
     [(0, "last register");
      (1, "subsequent register shall be extracted")]);
   ("bds10_fields.DownlinkELMThroughputCapability", bds10_fields.DownlinkELMThroughputCapability_ToString,
     [(0, "No DEML Capability");
      (1, "One 4 segments DELM every second");
      (2, "One 8 segments DELM every second");
      (3, "One 16 segments DELM every second");
      (4, "One 16 segments DELM every 500 ms");
      (5, "One 16 segments DELM every 250 ms");
      (6, "One 16 segments DELM every 125 ms")]);
   ("bds10_fields.ModeSSpecificServicesCapability", bds10_fields.ModeSSpecificServicesCapability_ToString,
     [(0, "no Mode S specific service is present");
      (1, "at least one Mode S specific service is present")]);
   ("bds10_fields.ModeSSubnetworkVersion", bds10_fields.ModeSSubnetworkVersion_ToString,
     [(0, "Mode S subnetwork not available");
      (1, "Mode S subnetwork Version 1 - ICAO Doc 9688 (1996)")]);
   ("bds10_fields.OverlayCommandCapability", bds10_fields.OverlayCommandCapability_ToString,
     [(0, "No Overlay Command Capability");
      (1, "Overlay Command Capability")]);
   ("bds10_fields.SquitterCapabilitySubfield", bds10_fields.SquitterCapabilitySubfield_ToString,
     [(0, "Both registers 05 and 06 have not been updated recently");
      (1, "Both registers 05 and 06 have been updated within the last ten, plus or minus one, seconds")]);
   ("bds10_fields.SurveillanceIdentifierCode", bds10_fields.SurveillanceIdentifierCode_ToString,
     [(0, "No surveillance identifier code capability");
      (1, "Surveillance identifier code capability")]);
   ("bds10_fields.TransponderEnhancedProtocolIndicator", bds10_fields.TransponderEnhancedProtocolIndicator_ToString,
     [(0, "Transponder Level 2 to 4");
      (1, "Transponder Level 5")]);
   ("bds10_fields.UplinkELMThroughputCapability", bds10_fields.UplinkELMThroughputCapability_ToString,
     [(0, "No UELM Capability");
      (1, "16 UELM segments in 1 second");
      (2, "16 UELM segments in 500 milliseconds");
      (3, "16 UELM segments in 250 milliseconds");
      (4, "16 UELM segments in 125 milliseconds");
      (5, "16 UELM segments in 60 milliseconds");
      (6, "16 UELM segments in 30 milliseconds")]);
   ("bds40_fields.StatusOfModeBits", bds40_fields.StatusOfModeBits_ToString,
     [(0, "No mode information provided");
      (1, "Mode information deliberately provided")]);
   ("bds40_fields.StatusOfTargetAltitudeSource", bds40_fields.StatusOfTargetAltitudeSource_ToString,
     [(0, "No source information provided");
      (1, "Source information deliberately provided")]);
   ("bds40_fields.TargetAltitudeSource", bds40_fields.TargetAltitudeSource_ToString,
     [(0, "Unknown");
      (1, "Aircraft altitude");
      (2, "FCU/MCP selected altitude");
      (3, "FMS selected altitude")]);
   ("bds44_fields.Source", bds44_fields.Source_ToString,
     [(0, "Invalid");
      (1, "INS");
      (2, "GNSS");
      (3, "DME/DME")]);
   ("bds44_fields.TurbulenceLevel", bds44_fields.TurbulenceLevel_ToString,
     [(0, "Nil");
      (1, "Light");
      (2, "Moderate");
      (3, "Severe")]);
   ("bds44_fields.TurbulenceFlag", bds44_fields.TurbulenceFlag_ToString,
     [(0, "turbulence data not available in Register 45");
      (1, "turbulence data available in Register 45")]);
   ("bds45_fields.HazardLevel", bds45_fields.HazardLevel_ToString,
     [(0, "Nil");
      (1, "Light");
      (2, "Moderate");
      (3, "Severe")]);
   ("bds61_fields.EmergencyPriorityStatus", bds61_fields.EmergencyPriorityStatus_ToString,
     [(0, "no emergency");
      (1, "general emergency");
      (2, "lifeguard/medical emergency");
      (3, "minimum fuel");
      (4, "no communications");
      (5, "unlawful interference");
      (6, "downed aircraft");
      (7, "reserved")]);
   ("bds61_fields.Subtype", bds61_fields.Subtype_ToString,
     [(0, "no information");
      (1, "emergency/priority status");
      (2, "TCAS/ACAS RA Broadcast");
      (3, "reserved");
      (4, "reserved");
      (5, "reserved");
      (6, "reserved");
      (7, "reserved")]);
   ("bds62_fields.CapabilityModeCode", bds62_fields.CapabilityModeCode_ToString,
     [(0, "TCAS/ACAS operational or unknown + No TCAS/ACAS Resolution Advisory active");
      (1, "TCAS/ACAS operational or unknown + TCAS/ACAS Resolution Advisory active");
      (2, "TCAS/ACAS not operational + No TCAS/ACAS Resolution Advisory active");
      (3, "TCAS/ACAS not operational + TCAS/ACAS Resolution Advisory active")]);
   ("bds62_fields.EmergencyPriorityStatus", bds62_fields.EmergencyPriorityStatus_ToString,
     [(0, "no emergency");
      (1, "general emergency");
      (2, "lifeguard/medical emergency");
      (3, "minimum fuel");
      (4, "no communications");
      (5, "unlawful interference");
      (6, "downed aircraft");
      (7, "reserved")]);
   ("bds62_fields.HorizontalDataAvailableSourceIndicator", bds62_fields.HorizontalDataAvailableSourceIndicator_ToString,
     [(0, "no valid horizontal target state data is available");
      (1, "autopilot control panel selected value, such as Mode Control Panel (MCP) or Flight Control Unit (FCU)");
      (2, "maintaining current heading or track angle (e.g. autopilot mode select)");
      (3, "FMS/RNAV system (indicates track angle specified by leg type)")]);
   ("bds62_fields.HorizontalModeIndicator", bds62_fields.HorizontalModeIndicator_ToString,
     [(0, "unknown mode or information unavailable");
      (1, """Acquiring"" Mode");
      (2, """Capturing"" or ""Maintaining"" Mode");
      (3, "Reserved")]);
   ("bds62_fields.NavigationalAccuracyCategoryPositionV1", bds62_fields.NavigationalAccuracyCategoryPositionV1_ToString,
     [(0, "EPU >= 18.52 km (10 NM) - Unknown accuracy");
      (1, "EPU < 18.52 km (10 NM) - RNP-10 accuracy");
      (2, "EPU < 7.408 km (4 NM) - RNP-4 accuracy");
      (3, "EPU < 3.704 km (2 NM) - RNP-2 accuracy");
      (4, "EPU < 1 852 m (1 NM) - RNP-1 accuracy");
      (5, "EPU < 926 m (0.5 NM) - RNP-0.5 accuracy");
      (6, "EPU < 555.6 m ( 0.3 NM) - RNP-0.3 accuracy");
      (7, "EPU < 185.2 m (0.1 NM) - RNP-0.1 accuracy");
      (8, "EPU < 92.6 m (0.05 NM) - e.g. GPS (with SA)");
      (9, "EPU < 30 m and VEPU < 45 m - e.g. GPS (SA off)");
      (10, "EPU < 10 m and VEPU < 15 m - e.g. WAAS");
      (11, "EPU < 3 m and VEPU < 4 m - e.g. LAAS");
      (12, "Reserved");
      (13, "Reserved");
      (14, "Reserved");
      (15, "Reserved")]);
   ("bds62_fields.NavigationalAccuracyCategoryPositionV2", bds62_fields.NavigationalAccuracyCategoryPositionV2_ToString,
     [(0, "EPU >= 18.52 km (10 NM) - Unknown accuracy");
      (1, "EPU < 18.52 km (10 NM) - RNP-10 accuracy");
      (2, "EPU < 7.408 km (4 NM) - RNP-4 accuracy");
      (3, "EPU < 3.704 km (2 NM) - RNP-2 accuracy");
      (4, "EPU < 1 852 m (1 NM) - RNP-1 accuracy");
      (5, "EPU < 926 m (0.5 NM) - RNP-0.5 accuracy");
      (6, "EPU < 555.6 m ( 0.3 NM) - RNP-0.3 accuracy");
      (7, "EPU < 185.2 m (0.1 NM) - RNP-0.1 accuracy");
      (8, "EPU < 92.6 m (0.05 NM) - e.g. GPS (with SA)");
      (9, "EPU < 30 m - e.g. GPS (SA off)");
      (10, "EPU < 10 m - e.g. WAAS");
      (11, "EPU < 3 m - e.g. LAAS");
      (12, "Reserved");
      (13, "Reserved");
      (14, "Reserved");
      (15, "Reserved")]);
   ("bds62_fields.NICBaro", bds62_fields.NICBaro_ToString,
     [(0, "barometric altitude based on a Gilham input that has not been cross-checked");
      (1, "barometric altitude based on a Gilham input that has been cross-checked or on a non Gilham input")]);
   ("bds62_fields.SelectedAltitudeType", bds62_fields.SelectedAltitudeType_ToString,
     [(0, "MCP/FCU (Mode Control Panel / Flight Control Unit)");
      (1, "FMS (Flight Management System)")]);
   ("bds62_fields.SelectedHeadingStatus", bds62_fields.SelectedHeadingStatus_ToString,
     [(0, "selected heading data is either not available or is invalid");
      (1, "selected heading data is valid")]);
   ("bds62_fields.SourceIntegrityLevel", bds62_fields.SourceIntegrityLevel_ToString,
     [(0, "Unknown or SIL > 1 * 10^-3 per flight hour or per sample");
      (1, "SIL <= 1 * 10^-3 per flight hour or per sample")]);
   ("bds62_fields.SourceIntegrityLevelSupplement", bds62_fields.SourceIntegrityLevelSupplement_ToString,
     [(0, "Probability of exceeding NIC radius of containment is based on ""per hour""");
      (1, "Probability of exceeding NIC radius of containment is based on ""per sample""")]);
   ("bds62_fields.StatusMCPFCUBits", bds62_fields.StatusMCPFCUBits_ToString,
     [(0, "no information provided for MCP/FCU mode bits");
      (1, "information provided for MCP/FCU mode bits")]);
   ("bds62_fields.Subtype", bds62_fields.Subtype_ToString,
     [(0, "Subtype 0");
      (1, "Subtype 1");
      (2, "reserved");
      (3, "reserved")]);
   ("bds62_fields.TargetAltitudeCapability", bds62_fields.TargetAltitudeCapability_ToString,
     [(0, "capability for reporting holding altitude only");
      (1, "capability for reporting either holding altitude or autopilot control panel	selected altitude");
      (2, "capability for reporting either holding altitude, autopilot control panel selected altitude, or any FMS/RNAV level-off altitude");
      (3, "Reserved")]);
   ("bds62_fields.TargetAltitudeType", bds62_fields.TargetAltitudeType_ToString,
     [(0, "referenced to pressure-altitude (flight level)");
      (1, "referenced to barometric corrected altitude (mean sea level)")]);
   ("bds62_fields.TargetHeadingTrackIndicator", bds62_fields.TargetHeadingTrackIndicator_ToString,
     [(0, "target heading angle is being reported");
      (1, "track angle is being reported")]);
   ("bds62_fields.VerticalDataAvailableSourceIndicator", bds62_fields.VerticalDataAvailableSourceIndicator_ToString,
     [(0, "no valid Vertical Target State data is available");
      (1, "autopilot control panel selected value, such as Mode Control Panel (MCP) or Flight Control Unit (FCU)");
      (2, "holding altitude");
      (3, "FMS/RNAV system")]);
   ("bds62_fields.VerticalModeIndicator", bds62_fields.VerticalModeIndicator_ToString,
     [(0, "unknown mode or information unavailable");
      (1, """Acquiring"" Mode");
      (2, """Capturing"" or ""Maintaining"" Mode");
      (3, "Reserved")]);
   ("bds65_fields.ACASOperational", bds65_fields.ACASOperational_ToString,
     [(0, "TCAS/ACAS is NOT Operational");
      (1, "TCAS/ACAS IS Operational")]);
   ("bds65_fields.ACASResolutionAdvisoryActiveV1", bds65_fields.ACASResolutionAdvisoryActiveV1_ToString,
     [(0, "ACAS II or ACAS RA not active");
      (1, "ACAS RA is active")]);
   ("bds65_fields.ACASResolutionAdvisoryActiveV2", bds65_fields.ACASResolutionAdvisoryActiveV2_ToString,
     [(0, "TCAS II or ACAS RA not active");
      (1, "TCAS/ACAS RA is active")]);
   ("bds65_fields.AirReferencedVelocityReportCapability", bds65_fields.AirReferencedVelocityReportCapability_ToString,
     [(0, "No capability for sending messages to support Air-Referenced Velocity Reports");
      (1, "Capability of sending messages to support Air-Referenced Velocity Reports")]);
   ("bds65_fields.ApproachLandingOperationalCapabilities", bds65_fields.ApproachLandingOperationalCapabilities_ToString,
     [(0, "reserved");
      (1, "reserved");
      (2, "reserved");
      (3, "reserved");
      (4, "reserved");
      (5, "reserved");
      (6, "reserved");
      (7, "reserved");
      (8, "reserved");
      (9, "reserved");
      (10, "reserved");
      (11, "reserved");
      (12, "reserved");
      (13, "reserved");
      (14, "reserved");
      (15, "reserved")]);
   ("bds65_fields.ApproachLandingOperationalCapabilityStatus", bds65_fields.ApproachLandingOperationalCapabilityStatus_ToString,
     [(0, "reserved");
      (1, "reserved");
      (2, "reserved");
      (3, "reserved");
      (4, "reserved");
      (5, "reserved");
      (6, "reserved");
      (7, "reserved");
      (8, "reserved");
      (9, "reserved");
      (10, "reserved");
      (11, "reserved");
      (12, "reserved");
      (13, "reserved");
      (14, "reserved");
      (15, "reserved")]);
   ("bds65_fields.B2Low", bds65_fields.B2Low_ToString,
     [(0, "Greater than or equal to 70 Watts transmit power");
      (1, "Less than 70 Watts transmit power")]);
   ("bds65_fields.CockpitDisplayOfTrafficInformationStatus", bds65_fields.CockpitDisplayOfTrafficInformationStatus_ToString,
     [(0, "Traffic display not operational");
      (1, "Traffic display operational")]);
   ("bds65_fields.EnRouteOperationalCapabilities", bds65_fields.EnRouteOperationalCapabilities_ToString,
     [(0, "reserved");
      (1, "reserved");
      (2, "reserved");
      (3, "reserved");
      (4, "reserved");
      (5, "reserved");
      (6, "reserved");
      (7, "reserved");
      (8, "reserved");
      (9, "reserved");
      (10, "reserved");
      (11, "reserved");
      (12, "reserved");
      (13, "reserved");
      (14, "reserved");
      (15, "reserved")]);
   ("bds65_fields.EnRouteOperationalCapabilityStatus", bds65_fields.EnRouteOperationalCapabilityStatus_ToString,
     [(0, "reserved");
      (1, "reserved");
      (2, "reserved");
      (3, "reserved");
      (4, "reserved");
      (5, "reserved");
      (6, "reserved");
      (7, "reserved");
      (8, "reserved");
      (9, "reserved");
      (10, "reserved");
      (11, "reserved");
      (12, "reserved");
      (13, "reserved");
      (14, "reserved");
      (15, "reserved")]);
   ("bds65_fields.ExtendedSquitterIn", bds65_fields.ExtendedSquitterIn_ToString,
     [(0, "Aircraft has NO 1090ES Receive capability");
      (1, "Aircraft has 1090ES Receive capability")]);
   ("bds65_fields.GeometricVerticalAccuracy", bds65_fields.GeometricVerticalAccuracy_ToString,
     [(0, "Unknown or GVA >= 150 meters")]);
   ("bds65_fields.GPSAntennaLateral", bds65_fields.GPSAntennaLateral_ToString,
     [(0, "no data");
      (1, "direction left, 2 meters");
      (2, "direction left, 4 meters");
      (3, "direction left, 6 meters");
      (4, "direction right, 0 meter");
      (5, "direction right, 2 meters");
      (6, "direction right, 4 meters");
      (7, "direction right, 6 meters")]);
   ("bds65_fields.GPSAntennaLongitudinal", bds65_fields.GPSAntennaLongitudinal_ToString,
     [(0, "no data");
      (1, "Antenna Offset is compensated by the Sensor");
      (2, "2");
      (3, "4");
      (4, "6");
      (5, "8");
      (6, "10");
      (7, "12");
      (8, "14");
      (9, "16");
      (10, "18");
      (11, "20");
      (12, "22");
      (13, "24");
      (14, "26");
      (15, "28");
      (16, "30");
      (17, "32");
      (18, "34");
      (19, "36");
      (20, "38");
      (21, "40");
      (22, "42");
      (23, "44");
      (24, "46");
      (25, "48");
      (26, "50");
      (27, "52");
      (28, "54");
      (29, "56");
      (30, "58");
      (31, "60")]);
   ("bds65_fields.HorizontalReferenceDirection", bds65_fields.HorizontalReferenceDirection_ToString,
     [(0, "true north");
      (1, "magnetic north")]);
   ("bds65_fields.IdentSwitchActive", bds65_fields.IdentSwitchActive_ToString,
     [(0, "Ident switch not active");
      (1, "Ident switch active - retained for 18 +/-1 seconds")]);
   ("bds65_fields.LengthWidth", bds65_fields.LengthWidth_ToString,
     [(0, "Length lower than 15 meters and Width lower than 11.5 meters");
      (1, "Length lower than 15 meters and Width lower than 23 meters");
      (2, "Length lower than 25 meters and Width lower than 28.5 meters");
      (3, "Length lower than 25 meters and Width lower than 34 meters");
      (4, "Length lower than 35 meters and Width lower than 33 meters");
      (5, "Length lower than 35 meters and Width lower than 38 meters");
      (6, "Length lower than 45 meters and Width lower than 39.5 meters");
      (7, "Length lower than 45 meters and Width lower than 45 meters");
      (8, "Length lower than 55 meters and Width lower than 45 meters");
      (9, "Length lower than 55 meters and Width lower than 52 meters");
      (11, "Length lower than 65 meters and Width lower than 67 meters");
      (12, "Length lower than 75 meters and Width lower than 72.5 meters");
      (13, "Length lower than 75 meters and Width lower than 80 meters");
      (14, "Length lower than 85 meters and Width lower than 80 meters");
      (15, "Length lower than 85 meters and Width lower than 90 meters")]);
   ("bds65_fields.NavigationalAccuracyCategoryPositionV1", bds65_fields.NavigationalAccuracyCategoryPositionV1_ToString,
     [(0, "EPU >= 18.52 km (10 NM) - Unknown accuracy");
      (1, "EPU < 18.52 km (10 NM) - RNP-10 accuracy");
      (2, "EPU < 7.408 km (4 NM) - RNP-4 accuracy");
      (3, "EPU < 3.704 km (2 NM) - RNP-2 accuracy");
      (4, "EPU < 1 852 m (1 NM) - RNP-1 accuracy");
      (5, "EPU < 926 m (0.5 NM) - RNP-0.5 accuracy");
      (6, "EPU < 555.6 m ( 0.3 NM) - RNP-0.3 accuracy");
      (7, "EPU < 185.2 m (0.1 NM) - RNP-0.1 accuracy");
      (8, "EPU < 92.6 m (0.05 NM) - e.g. GPS (with SA)");
      (9, "EPU < 30 m and VEPU < 45 m - e.g. GPS (SA off)");
      (10, "EPU < 10 m and VEPU < 15 m - e.g. WAAS");
      (11, "EPU < 3 m and VEPU < 4 m - e.g. LAAS");
      (12, "Reserved");
      (13, "Reserved");
      (14, "Reserved");
      (15, "Reserved")]);
   ("bds65_fields.NavigationalAccuracyCategoryPositionV2", bds65_fields.NavigationalAccuracyCategoryPositionV2_ToString,
     [(0, "EPU >= 18.52 km (10 NM) - Unknown accuracy");
      (1, "EPU < 18.52 km (10 NM) - RNP-10 accuracy");
      (2, "EPU < 7.408 km (4 NM) - RNP-4 accuracy");
      (3, "EPU < 3.704 km (2 NM) - RNP-2 accuracy");
      (4, "EPU < 1 852 m (1 NM) - RNP-1 accuracy");
      (5, "EPU < 926 m (0.5 NM) - RNP-0.5 accuracy");
      (6, "EPU < 555.6 m ( 0.3 NM) - RNP-0.3 accuracy");
      (7, "EPU < 185.2 m (0.1 NM) - RNP-0.1 accuracy");
      (8, "EPU < 92.6 m (0.05 NM) - e.g. GPS (with SA)");
      (9, "EPU < 30 m - e.g. GPS (SA off)");
      (10, "EPU < 10 m - e.g. WAAS");
      (11, "EPU < 3 m - e.g. LAAS");
      (12, "Reserved");
      (13, "Reserved");
      (14, "Reserved");
      (15, "Reserved")]);
   ("bds65_fields.NICBaro", bds65_fields.NICBaro_ToString,
     [(0, "barometric altitude based on a Gilham input that has not been cross-checked");
      (1, "barometric altitude based on a Gilham input that has been cross-checked or on a non Gilham input")]);
   ("bds65_fields.NotACASStatus", bds65_fields.NotACASStatus_ToString,
     [(0, "ACAS operational or unknown");
      (1, "ACAS not installed or not operational")]);
   ("bds65_fields.PositionOffsetApplied", bds65_fields.PositionOffsetApplied_ToString,
     [(0, "Position transmitted is not the ADS-B position reference point");
      (1, "Position transmitted is the ADS-B position reference point")]);
   ("bds65_fields.ReceivingATCServices", bds65_fields.ReceivingATCServices_ToString,
     [(0, "Aircraft not receiving ATC services");
      (1, "Aircraft receiving ATC services")]);
   ("bds65_fields.SingleAntennaFlag", bds65_fields.SingleAntennaFlag_ToString,
     [(0, "Systems with two functioning antennas");
      (1, "Systems that use only one antenna")]);
   ("bds65_fields.SourceIntegrityLevel", bds65_fields.SourceIntegrityLevel_ToString,
     [(0, "Unknown or SIL > 1 * 10^-3 per flight hour or per sample");
      (1, "SIL <= 1 * 10^-3 per flight hour or per sample");
      (2, "SIL <= 1 * 10^-5 per flight hour or per sample");
      (3, "SIL <= 1 * 10^-7 per flight hour or per sample")]);
   ("bds65_fields.SourceIntegrityLevelSupplement", bds65_fields.SourceIntegrityLevelSupplement_ToString,
     [(0, "Probability of exceeding NIC radius of containment is based on ""per hour""");
      (1, "Probability of exceeding NIC radius of containment is based on ""per sample""")]);
   ("bds65_fields.Subtype", bds65_fields.Subtype_ToString,
     [(0, "Airborne Status Message");
      (1, "Surface Status Message")]);
   ("bds65_fields.SurfaceOperationalCapabilities", bds65_fields.SurfaceOperationalCapabilities_ToString,
     [(0, "reserved");
      (1, "reserved");
      (2, "reserved");
      (3, "reserved");
      (4, "reserved");
      (5, "reserved");
      (6, "reserved");
      (7, "reserved");
      (8, "reserved");
      (9, "reserved");
      (10, "reserved");
      (11, "reserved");
      (12, "reserved");
      (13, "reserved");
      (14, "reserved");
      (15, "reserved")]);
   ("bds65_fields.SurfaceOperationalCapabilityStatus", bds65_fields.SurfaceOperationalCapabilityStatus_ToString,
     [(0, "reserved");
      (1, "reserved");
      (2, "reserved");
      (3, "reserved");
      (4, "reserved");
      (5, "reserved");
      (6, "reserved");
      (7, "reserved");
      (8, "reserved");
      (9, "reserved");
      (10, "reserved");
      (11, "reserved");
      (12, "reserved");
      (13, "reserved");
      (14, "reserved");
      (15, "reserved")]);
   ("bds65_fields.SystemDesignAssurance", bds65_fields.SystemDesignAssurance_ToString,
     [(0, "Not Applicable");
      (1, "Level D");
      (2, "Level C");
      (3, "Level B")]);
   ("bds65_fields.TargetChangeReportCapability", bds65_fields.TargetChangeReportCapability_ToString,
     [(0, "No capability for sending messages to support Trajectory Change Reports");
      (1, "Capability of sending messages to support TC+0 Report only");
      (2, "Capability of sending information for multiple TC Reports");
      (3, "Reserved")]);
   ("bds65_fields.TargetStateReportCapability", bds65_fields.TargetStateReportCapability_ToString,
     [(0, "No capability for sending messages to support Target State Reports");
      (1, "Capability of sending messages to support Target State Reports")]);
   ("bds65_fields.TerminalAreaOperationalCapabilities", bds65_fields.TerminalAreaOperationalCapabilities_ToString,
     [(0, "reserved");
      (1, "reserved");
      (2, "reserved");
      (3, "reserved");
      (4, "reserved");
      (5, "reserved");
      (6, "reserved");
      (7, "reserved");
      (8, "reserved");
      (9, "reserved");
      (10, "reserved");
      (11, "reserved");
      (12, "reserved");
      (13, "reserved");
      (14, "reserved");
      (15, "reserved")]);
   ("bds65_fields.TerminalAreaOperationalCapabilityStatus", bds65_fields.TerminalAreaOperationalCapabilityStatus_ToString,
     [(0, "reserved");
      (1, "reserved");
      (2, "reserved");
      (3, "reserved");
      (4, "reserved");
      (5, "reserved");
      (6, "reserved");
      (7, "reserved");
      (8, "reserved");
      (9, "reserved");
      (10, "reserved");
      (11, "reserved");
      (12, "reserved");
      (13, "reserved");
      (14, "reserved");
      (15, "reserved")]);
   ("bds65_fields.TrackAngleHeading", bds65_fields.TrackAngleHeading_ToString,
     [(0, "Target heading angle is being reported");
      (1, "Track angle is being reported")]);
   ("bds65_fields.UniversalAccessTransceiverCapability", bds65_fields.UniversalAccessTransceiverCapability_ToString,
     [(0, "Aircraft has No UAT Receive capability");
      (1, "Aircraft has UAT Receive capability")]);
   ("modes_fields.AltitudeReportMethod", modes_fields.AltitudeReportMethod_ToString,
     [(1, "Not Available");
      (2, "Metric Units");
      (3, "100 Foot Increments");
      (4, "25 Foot Increments")]);
   ("modes_fields.ApplicationField", modes_fields.ApplicationField_ToString,
     [(0, "Reserved");
      (1, "Reserved");
      (2, "Reserved");
      (3, "Reserved");
      (4, "Reserved");
      (5, "Reserved");
      (6, "Reserved");
      (7, "Reserved")]);
   ("modes_fields.Capability", modes_fields.Capability_ToString,
     [(0, "Level 1 Transponder (surveillance only)");
      (1, "Reserved");
      (2, "Reserved");
      (3, "Reserved");
      (4, "Level 2 On The Ground");
      (5, "Level 2 Airborne");
      (6, "Level 2 On The Ground or Airborne");
      (7, "Flight Status (FS) with alert or downlink request (DR)")]);
   ("modes_fields.ControlELM", modes_fields.ControlELM_ToString,
     [(0, "Downlink ELM Transmission");
      (1, "Uplink ELM Acknowledgement")]);
   ("modes_fields.ControlField", modes_fields.ControlField_ToString,
     [(0, "ADSB (ADS-B ES/NT devices that report the ICAO 24-bit address in the AA field)");
      (1, "ADSB Reserved (reserved for ADS-B for ES/NT devices that use other addressing techniques in the AA field)");
      (2, "TISB Fine Format");
      (3, "TISB Coarse Format");
      (4, "TISB Reserved Management");
      (5, "TISB Relay ADSB");
      (6, "ADSB Rebroadcast (ADS-B rebroadcast using the same type codes and message formats as defined for DF = 17 ADS-B messages)");
      (7, "Reserved")]);
   ("modes_fields.CrossLinkCompatibility", modes_fields.CrossLinkCompatibility_ToString,
     [(0, "Not Supported");
      (1, "Supported")]);
   ("modes_fields.DownlinkRequest", modes_fields.DownlinkRequest_ToString,
     [(0, "No Downlink Request");
      (1, "Request To Send Comm-B Message");
      (2, "ACAS message available");
      (3, "Comm-B message available and ACAS message available");
      (4, "Comm-B Message 1 Available");
      (5, "Comm-B Message 2 Available");
      (6, "Comm-B broadcast message 1 available and ACAS message available");
      (7, "Comm-B broadcast message 2 available and ACAS message available");
      (8, "Not Assigned");
      (9, "Not Assigned");
      (10, "Not Assigned");
      (11, "Not Assigned");
      (12, "Not Assigned");
      (13, "Not Assigned");
      (14, "Not Assigned");
      (15, "Not Assigned");
      (16, "ELM Available 1 Segments");
      (17, "ELM Available 2 Segments");
      (18, "ELM Available 3 Segments");
      (19, "ELM Available 4 Segments");
      (20, "ELM Available 5 Segments");
      (21, "ELM Available 6 Segments");
      (22, "ELM Available 7 Segments");
      (23, "ELM Available 8 Segments");
      (24, "ELM Available 9 Segments");
      (25, "ELM Available 10 Segment");
      (26, "ELM Available 11 Segments");
      (27, "ELM Available 12 Segments");
      (28, "ELM Available 13 Segments");
      (29, "ELM Available 14 Segments");
      (30, "ELM Available 15 Segments");
      (31, "ELM Available 16 Segments")]);
   ("modes_fields.FlightStatus", modes_fields.FlightStatus_ToString,
     [(0, "No Alert, No SPI, Airborne");
      (1, "No Alert, No SPI, On The Ground");
      (2, "Alert, No SPI, Airborne");
      (3, "Alert, No SPI, On The Ground");
      (6, "Reserved");
      (7, "Reserved")]);
   ("modes_fields.ReplyInformationAirAir", modes_fields.ReplyInformationAirAir_ToString,
     [(0, "No Operating ACAS");
      (1, "Reserved ACAS");
      (2, "ACAS with resolution capability inhibited");
      (3, "ACAS with vertical-only resolution capability");
      (4, "ACAS with vertical and horizontal resolution capability");
      (5, "Reserved ACAS");
      (6, "Reserved ACAS");
      (7, "Reserved ACAS");
      (8, "Maximum Air Speed Not Available");
      (9, "Maximum Air Speed 0 To 140 km/h (75 kt)");
      (10, "Maximum AirSpeed 140 To 280 km/h (75 and 150 kt)");
      (11, "Maximum AirSpeed 280 To 560 km/h (150 and 300 kt)");
      (12, "Maximum AirSpeed 560 To 1110 km/h (300 and 600 kt)");
      (13, "Maximum AirSpeed 1110 To 2220 km/h (600 and 1 200 kt)");
      (14, "Maximum Air Speed Over 2220 km/h (1 200 kt)");
      (15, "Not Assigned")]);
   ("modes_fields.SensitivityLevelReport", modes_fields.SensitivityLevelReport_ToString,
     [(0, "ACAS Inoperative");
      (1, "Level 1");
      (2, "Level 2");
      (3, "Level 3");
      (4, "Level 4");
      (5, "Level 5");
      (6, "Level 6");
      (7, "Level 7")]);
   ("modes_fields.UtilityMessageIdentifierDesignator", modes_fields.UtilityMessageIdentifierDesignator_ToString,
     [(0, "No Information");
      (1, "Designator Comm-B");
      (2, "Designator Comm-C");
      (3, "Designator Comm-D")]);
   ("modes_fields.VerticalStatus", modes_fields.VerticalStatus_ToString,
     [(0, "Airborne");
      (1, "On The Ground")])].

Local Notation "a ++ b" := (String.append a b).
Definition sil_horizontal : string := "Probability of exceeding the Horizontal Containment Radius reported in the NIC Subfield without an indication: ".
Definition sil_vertical : string := "Probability of exceeding the Vertical Integrity Containment Region (VPL) without an indication:                ".

(* the whole text, for the fields shown without their code *)
Definition worded : list (string * (Z -> string) * list (Z * string)) :=
  [("acas_ra_fields.ActiveRAPreventiveCorrective", acas_ra_fields.ActiveRAPreventiveCorrective_ToString,
     [(0, "Preventive");
      (1, "Corrective")]);
   ("acas_ra_fields.ActiveRAVerticalSpeedLimitOrPositive", acas_ra_fields.ActiveRAVerticalSpeedLimitOrPositive_ToString,
     [(0, "Vertical Speed Limit");
      (1, "Positive")]);
   ("acas_ra_fields.MultipleThreatEncounter", acas_ra_fields.MultipleThreatEncounter_ToString,
     [(0, "One or no threat is currently being processed by the ACAS");
      (1, "Two or more threats are currently being processed by the ACAS")]);
   ("acas_ra_fields.RATerminatedIndicator", acas_ra_fields.RATerminatedIndicator_ToString,
     [(0, "ACAS is currently generating the RA");
      (1, "the RA indicated has been terminated")]);
   ("acas_ra_fields.AltitudeStatus", acas_ra_fields.AltitudeStatus_ToString,
     [(0, "Not Available or Invalid");
      (1, "Valid")]);
   ("adsb_airborne_position_fields.ContainmentRadius", adsb_airborne_position_fields.ContainmentRadius_ToString,
     [(9, "(Baro) 0 μ < 3m");
      (10, "(Baro) 3 m <= μ < 10 m");
      (11, "(Baro) 10 m <= μ < 92.6 m (0.05 NM)");
      (12, "(Baro) 92.6 m <= μ < 185.2 m (0.05 NM <= μ < 0.1 NM)");
      (13, "(Baro) 185.2 m <= μ < 463 m (0.1 NM <= μ < 0.25 NM)");
      (14, "(Baro) 463 m <= μ < 926 m (0.25 NM <= μ < 0.5 NM)");
      (15, "(Baro) 926 m <= μ < 1852 m (0.5 NM <= μ < 1.0 NM)");
      (16, "(Baro) 1.852 km <= μ < 9.26 km (1.0 NM <= μ < 5.0 NM)");
      (17, "(Baro) 9.26 km <= μ < 18.52 km (5.0 NM <= μ < 10.0 NM)");
      (18, "(Baro) 18.52 km <= μ (10.0 NM <= μ)");
      (20, "(GNSS) μ < 3 m and v < 4 m");
      (21, "(GNSS) μ < 10 m and v < 15 m");
      (22, "(GNSS) μ > 10 m or v >= 15 m")]);
   ("adsb_airborne_position_fields.HorizontalContainmentRadiusV1", adsb_airborne_position_fields.HorizontalContainmentRadiusV1_ToString,
     [(9, "(Baro) Rc < 7.5 m and VPL < 11 m");
      (10, "(Baro) Rc < 25 m and VPL < 37.5 m");
      (11, "(Baro) Rc < 0.1 NM (185.2 m)");
      (12, "(Baro) Rc < 0.2 NM (370.4 m)");
      (13, "(Baro) Rc < 0.5 NM (926 m)");
      (14, "(Baro) Rc < 1.0 NM (1852 m)");
      (15, "(Baro) Rc < 2 NM (3.704 km)");
      (16, "(Baro) Rc < 8 NM (14.816 km)");
      (17, "(Baro) Rc < 20 NM (37.04 km)");
      (18, "(Baro) Rc >= 20 NM (37.04 km) or unknown");
      (111, "(Baro) Rc < 75 m and VPL < 112 m");
      (113, "(Baro) Rc < 0.6 NM (1111.2 m)");
      (116, "(Baro) Rc < 4 NM (7.408 km)");
      (0, "(GNSS) Rc < 7.5 m and VPL < 11 m");
      (1, "(GNSS) Rc < 25 m and VPL < 37.5 m");
      (2, "(GNSS) Rc >= 25 m or VPL >= 37.5 m or unknown")]);
   ("adsb_airborne_position_fields.HorizontalContainmentRadiusV2", adsb_airborne_position_fields.HorizontalContainmentRadiusV2_ToString,
     [(9, "(Baro) Rc < 7.5 m");
      (10, "(Baro) Rc < 25 m");
      (11, "(Baro) Rc < 0.1 NM (185.2 m)");
      (12, "(Baro) Rc < 0.2 NM (370.4 m)");
      (13, "(Baro) Rc < 0.5 NM (926 m)");
      (14, "(Baro) Rc < 1.0 NM (1852 m)");
      (15, "(Baro) Rc < 2 NM (3.704 km)");
      (16, "(Baro) Rc < 8 NM (14.816 km)");
      (17, "(Baro) Rc < 20 NM (37.04 km)");
      (18, "(Baro) Rc >= 20 NM (37.04 km) or unknown");
      (111, "(Baro) Rc < 75 m");
      (113, "(Baro) Rc < 0.6 NM (1111.2 m)");
      (116, "(Baro) Rc < 4 NM (7.408 km)");
      (213, "(Baro) Rc < 0.3 NM (555.6 m)");
      (20, "(GNSS) Rc < 7.5 m");
      (21, "(GNSS) Rc < 25 m");
      (22, "(GNSS) Rc >= 25 m or unknown")]);
   ("adsb_airborne_position_fields.HorizontalProtectionLimit", adsb_airborne_position_fields.HorizontalProtectionLimit_ToString,
     [(9, "(Baro) HorizontalProtectionLimit < 7.5 m");
      (10, "(Baro) 7.5 m <= HorizontalProtectionLimit < 25 m");
      (11, "(Baro) 25 m <= HorizontalProtectionLimit < 185.2 m (0.1NM)");
      (12, "(Baro) 185.2 m <= HorizontalProtectionLimit < 370.4 m (0.1 NM <= HorizontalProtectionLimit < 0.2 NM)");
      (13, "(Baro) 370.4 m <= HorizontalProtectionLimit < 926 m (0.2 NM <= HorizontalProtectionLimit < 0.5 NM)");
      (14, "(Baro) 926 m <= HorizontalProtectionLimit < 1 852 m (0.5 NM <= HorizontalProtectionLimit < 1.0 NM)");
      (15, "(Baro) 1 852 m <= HorizontalProtectionLimit < 3 704 m (1.0 NM <= HorizontalProtectionLimit < 2.0 NM)");
      (16, "(Baro) 3.704 km <= HorizontalProtectionLimit < 18.52 km (2.0 NM <= HorizontalProtectionLimit < 10 NM)");
      (17, "(Baro) 18.52 km <= HorizontalProtectionLimit < 37.04 km (10 NM <= HorizontalProtectionLimit < 20 NM)");
      (18, "(Baro) HorizontalProtectionLimit >= 37.04 km (HorizontalProtectionLimit >= 20 NM)");
      (20, "(GNSS) HorizontalProtectionLimit < 7.5 m");
      (21, "(GNSS) HorizontalProtectionLimit < 25 m");
      (22, "(GNSS) 25 m <= HorizontalProtectionLimit")]);
   ("adsb_airborne_position_fields.NavigationIntegrityCodeSupplementB", adsb_airborne_position_fields.NavigationIntegrityCodeSupplementB_ToString,
     [(0, "0");
      (1, "1")]);
   ("adsb_surface_position_fields.ContainmentRadius", adsb_surface_position_fields.ContainmentRadius_ToString,
     [(5, "μ < 3 m");
      (6, "3 m <= μ < 10 m");
      (7, "10 m <= μ < 92.6 m (0.05 NM)");
      (8, "92.6 m (0.05 NM) <= μ")]);
   ("adsb_surface_position_fields.HorizontalContainmentRadiusV1", adsb_surface_position_fields.HorizontalContainmentRadiusV1_ToString,
     [(0, "Rc < 7.5 m");
      (1, "Rc < 25 m");
      (2, "Rc < 75 m");
      (3, "Rc < 0.1 NM (185.2 m)");
      (4, "Rc >= 0.1 NM (185.2 m) or unknown")]);
   ("adsb_surface_position_fields.HorizontalContainmentRadiusV2", adsb_surface_position_fields.HorizontalContainmentRadiusV2_ToString,
     [(0, "Rc < 7.5 m");
      (1, "Rc < 25 m");
      (2, "Rc < 75 m");
      (3, "Rc < 0.1 NM (185.2 m)");
      (4, "Rc < 0.2 NM (370.4 m)");
      (5, "Rc < 0.3 NM (555.6 m)");
      (6, "Rc < 0.6 NM (1111.2 m)");
      (7, "Rc >= 0.6 NM (1111.2 m) or unknown")]);
   ("adsb_surface_position_fields.HorizontalProtectionLimit", adsb_surface_position_fields.HorizontalProtectionLimit_ToString,
     [(5, "HPL < 7.5 m");
      (6, "HPL < 25 m");
      (7, "HPL < 185.2 m (0.1 NM)");
      (8, "185.2 m (0.1 NM) <= HPL")]);
   ("bds09_fields.NumericValueStatus", bds09_fields.NumericValueStatus_ToString,
     [(0, "No information");
      (1, "Regular value");
      (2, "Maximum")]);
   ("bds10_fields.ACASApplicableDocument", bds10_fields.ACASApplicableDocument_ToString,
     [(0, "RTCA DO-185");
      (2, "RTCA DO-185A");
      (1, "RTCA DO-185B")]);
   ("bds62_fields.NumericValueStatus", bds62_fields.NumericValueStatus_ToString,
     [(0, "No information");
      (1, "Regular value");
      (2, "Maximum")]);
   ("bds62_fields.SurveillanceIntegrityLevel", bds62_fields.SurveillanceIntegrityLevel_ToString,
     [(0, (sil_horizontal ++ "Unknown" ++ nl ++ sil_vertical ++ "Unknown"));
      (1, (sil_horizontal ++ "<= 1 * 10^-3 per flight hour or per sample" ++ nl ++ sil_vertical ++ "<= 1 * 10^-3 per flight hour or per sample"));
      (2, (sil_horizontal ++ "<= 1 * 10^-5 per flight hour or per sample" ++ nl ++ sil_vertical ++ "<= 1 * 10^-5 per flight hour or per sample"));
      (3, (sil_horizontal ++ "<= 1 * 10^-7 per flight hour or per sample" ++ nl ++ sil_vertical ++ "<= 2 * 10^-7 per 150 seconds or per sample"))]);
   ("bds65_fields.NICSupplementA", bds65_fields.NICSupplementA_ToString,
     [(0, "0");
      (1, "1")]);
   ("bds65_fields.NICSupplementC", bds65_fields.NICSupplementC_ToString,
     [(0, "0");
      (1, "1")]);
   ("bds65_fields.SurveillanceIntegrityLevel", bds65_fields.SurveillanceIntegrityLevel_ToString,
     [(0, (sil_horizontal ++ "Unknown" ++ nl ++ sil_vertical ++ "Unknown"));
      (1, (sil_horizontal ++ "<= 1 * 10^-3 per flight hour or per sample" ++ nl ++ sil_vertical ++ "<= 1 * 10^-3 per flight hour or per sample"));
      (2, (sil_horizontal ++ "<= 1 * 10^-5 per flight hour or per sample" ++ nl ++ sil_vertical ++ "<= 1 * 10^-5 per flight hour or per sample"));
      (3, (sil_horizontal ++ "<= 1 * 10^-7 per flight hour or per sample" ++ nl ++ sil_vertical ++ "<= 2 * 10^-7 per 150 seconds or per sample"))])].

(* the text where no meaning is defined *)
Definition unknown (code : Z) : string := numeral code ++ " - Unknown code".

(* fields with another text for the codes that are not listed: any other version, a speed, and
   the number alone *)
Definition otherwise : list (string * (Z -> string) * list (Z * string) * (Z -> string)) :=
  [("adsb.ADSBVersion", adsb.ADSBVersion_ToString,
     [(0, "ADSB V0");
      (1, "ADSB V1");
      (2, "ADSB V2")],
     fun code => "there is no ADSB ReaderLevel associated with value " ++ numeral code);
   ("bds06_fields.MovementStatus", bds06_fields.MovementStatus_ToString,
     [(0, "0 - no information available");
      (1, "1 - aircraft stopped (ground speed < 0.2315 km/h (0.125 kt))");
      (124, "124 - ground speed ≥ 324.1 km/h (175 kt)");
      (125, "125 - reserved for A/C Decelerating");
      (126, "126 - reserved for A/C Accelerating");
      (127, "127 - reserved for Backing Up")],
     fun code => numeral code ++ " - valid");
   ("bds65_fields.VersionNumber", bds65_fields.VersionNumber_ToString,
     [(0, "0 - ADSB V0: Conformant to Doc 9871, Appendix A");
      (1, "1 - ADSB V1: Conformant to Doc 9871, Appendix B");
      (2, "2 - ADSB V2: Conformant to Doc 9871, Appendix C")],
     numeral)].

(* codes shown with a text that is not their meaning (the field, its code, the text shown, and what is meant) *)
Definition misnamed : list (string * Z * string * string) :=
  [("bds07_fields.TransmissionRateSubfield", 0, "0 - Barometric altitude",
     "0 - No capability to determine surface squitter rate");
   ("bds09_fields.NavigationUncertaintyCategory", 2, "1 - Horizontal Velocity Error (95%): < 3 m/s / Vertical Velocity Error (95%): < 4.6 m/s (15 fps)",
     "2 - Horizontal Velocity Error (95%): < 3 m/s / Vertical Velocity Error (95%): < 4.6 m/s (15 fps)");
   ("bds09_fields.NavigationUncertaintyCategory", 3, "1 - Horizontal Velocity Error (95%): < 2 m/s / Vertical Velocity Error (95%): < 1.5 m/s (5 fps)",
     "3 - Horizontal Velocity Error (95%): < 1 m/s / Vertical Velocity Error (95%): < 1.5 m/s (5 fps)");
   ("bds09_fields.NavigationUncertaintyCategory", 4, "1 - Horizontal Velocity Error (95%): < 0.3 m/s / Vertical Velocity Error (95%): < 0.46 m/s (1.5 fps)",
     "4 - Horizontal Velocity Error (95%): < 0.3 m/s / Vertical Velocity Error (95%): < 0.46 m/s (1.5 fps)");
   ("bds10_fields.ModeSSubnetworkVersion", 2, "1 - Mode S subnetwork Version 2 - ICAO Doc 9688 (1997)",
     "2 - Mode S subnetwork Version 2 - ICAO Doc 9688 (1997)");
   ("bds10_fields.ModeSSubnetworkVersion", 3, "1 - Mode S subnetwork Version 3 - ICAO Annex 10, Vol III, Amdt 77",
     "3 - Mode S subnetwork Version 3 - ICAO Annex 10, Vol III, Amdt 77");
   ("bds10_fields.ModeSSubnetworkVersion", 4, "1 - Mode S subnetwork Version 4 - ICAO Doc 9871, Edition 1",
     "4 - Mode S subnetwork Version 4 - ICAO Doc 9871, Edition 1");
   ("bds10_fields.ModeSSubnetworkVersion", 5, "1 - Mode S subnetwork Version 5 - ICAO Doc 9871, Edition 2",
     "5 - Mode S subnetwork Version 5 - ICAO Doc 9871, Edition 2");
   ("bds44_fields.Source", 4, "4 - VOR/DMS",
     "4 - VOR/DME");
   ("bds62_fields.SourceIntegrityLevel", 2, "1 - SIL <= 1 * 10^-5 per flight hour or per sample",
     "2 - SIL <= 1 * 10^-5 per flight hour or per sample");
   ("bds62_fields.SourceIntegrityLevel", 3, "1 - SIL <= 1 * 10^-7 per flight hour or per sample",
     "3 - SIL <= 1 * 10^-7 per flight hour or per sample");
   ("bds65_fields.GeometricVerticalAccuracy", 1, "0 - GVA <= 150 meters",
     "1 - GVA <= 150 meters");
   ("bds65_fields.GeometricVerticalAccuracy", 2, "0 - GVA <= 45 meters",
     "2 - GVA <= 45 meters");
   ("bds65_fields.GeometricVerticalAccuracy", 3, "0 - reserved",
     "3 - reserved");
   ("bds65_fields.LengthWidth", 10, "10 - Length lower than 65 meters and Width lower than 59 meters",
     "10 - Length lower than 65 meters and Width lower than 59.5 meters");
   ("modes_fields.FlightStatus", 4, "4 - Alert, SPI, Airborne",
     "4 - Alert, SPI, Airborne or On The Ground");
   ("modes_fields.FlightStatus", 5, "5 - Alert, SPI, On The Ground",
     "5 - No Alert, SPI, Airborne or On The Ground")].
