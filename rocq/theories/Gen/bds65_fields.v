(* GENERATED by tools/go2coq.py from /repo/pkg/bds/bds65/fields -- do not edit by hand.
   One Gallina definition per Go declaration; each is preceded by the file and lines it models.
   Error values are represented by their text, see DESIGN.md.
*)
From Verif Require Import GoBase.
Local Open Scope Z_scope.

(* pkg/bds/bds65/fields/acas_operational.go:8 *)
Definition ACASOperational := Z.

(* pkg/bds/bds65/fields/acas_resolution_advisory_active_v1.go:8 *)
Definition ACASResolutionAdvisoryActiveV1 := Z.

(* pkg/bds/bds65/fields/acas_resolution_advisory_active_v2.go:8 *)
Definition ACASResolutionAdvisoryActiveV2 := Z.

(* pkg/bds/bds65/fields/air_referenced_velocity_report_capability.go:8 *)
Definition AirReferencedVelocityReportCapability := Z.

(* pkg/bds/bds65/fields/not_acas_status.go:8 *)
Definition NotACASStatus := Z.

(* pkg/bds/bds65/fields/cockpit_display_traffic_information_status.go:8 *)
Definition CockpitDisplayOfTrafficInformationStatus := Z.

(* pkg/bds/bds65/fields/target_state_report_capability.go:8 *)
Definition TargetStateReportCapability := Z.

(* pkg/bds/bds65/fields/target_change_report_capability.go:8 *)
Definition TargetChangeReportCapability := Z.

(* pkg/bds/bds65/fields/airborne_capability_class_v1.go:8-14 *)
Record AirborneCapabilityClassV1 := mkAirborneCapabilityClassV1 {
  AirborneCapabilityClassV1_NotACASStatus : NotACASStatus;
  AirborneCapabilityClassV1_CockpitDisplayOfTrafficInformationStatus : CockpitDisplayOfTrafficInformationStatus;
  AirborneCapabilityClassV1_AirReferencedVelocityReportCapability : AirReferencedVelocityReportCapability;
  AirborneCapabilityClassV1_TargetStateReportCapability : TargetStateReportCapability;
  AirborneCapabilityClassV1_TargetChangeReportCapability : TargetChangeReportCapability }.

(* pkg/bds/bds65/fields/extended_squitter_in.go:8 *)
Definition ExtendedSquitterIn := Z.

(* pkg/bds/bds65/fields/universal_access_transceiver_capability.go:8 *)
Definition UniversalAccessTransceiverCapability := Z.

(* pkg/bds/bds65/fields/airborne_capability_class_v2.go:8-15 *)
Record AirborneCapabilityClassV2 := mkAirborneCapabilityClassV2 {
  AirborneCapabilityClassV2_ACASOperational : ACASOperational;
  AirborneCapabilityClassV2_ExtendedSquitterIn : ExtendedSquitterIn;
  AirborneCapabilityClassV2_AirReferencedVelocityReportCapability : AirReferencedVelocityReportCapability;
  AirborneCapabilityClassV2_TargetStateReportCapability : TargetStateReportCapability;
  AirborneCapabilityClassV2_TargetChangeReportCapability : TargetChangeReportCapability;
  AirborneCapabilityClassV2_UniversalAccessTransceiverCapability : UniversalAccessTransceiverCapability }.

(* pkg/bds/bds65/fields/ident_switch_active.go:8 *)
Definition IdentSwitchActive := Z.

(* pkg/bds/bds65/fields/single_antenna_flag.go:8 *)
Definition SingleAntennaFlag := Z.

(* pkg/bds/bds65/fields/system_design_assurance.go:8 *)
Definition SystemDesignAssurance := Z.

(* pkg/bds/bds65/fields/airborne_operational_mode.go:8-13 *)
Record AirborneOperationalMode := mkAirborneOperationalMode {
  AirborneOperationalMode_ACASResolutionAdvisoryActive : ACASResolutionAdvisoryActiveV2;
  AirborneOperationalMode_IdentSwitchActive : IdentSwitchActive;
  AirborneOperationalMode_SingleAntennaFlag : SingleAntennaFlag;
  AirborneOperationalMode_SystemDesignAssurance : SystemDesignAssurance }.

(* pkg/bds/bds65/fields/approach_landing_operational_capabilities.go:8 *)
Definition ApproachLandingOperationalCapabilities := Z.

(* pkg/bds/bds65/fields/approach_landing_operational_capability_status.go:8 *)
Definition ApproachLandingOperationalCapabilityStatus := Z.

(* pkg/bds/bds65/fields/b2_low.go:8 *)
Definition B2Low := Z.

(* pkg/bds/bds65/fields/en_route_operational_capabilities.go:8 *)
Definition EnRouteOperationalCapabilities := Z.

(* pkg/bds/bds65/fields/en_route_operational_capability_status.go:8 *)
Definition EnRouteOperationalCapabilityStatus := Z.

(* pkg/bds/bds65/fields/geometric_vertical_accuracy.go:8 *)
Definition GeometricVerticalAccuracy := Z.

(* pkg/bds/bds65/fields/gps_antenna_lateral.go:8 *)
Definition GPSAntennaLateral := Z.

(* pkg/bds/bds65/fields/gps_antenna_longitudinal.go:8 *)
Definition GPSAntennaLongitudinal := Z.

(* pkg/bds/bds65/fields/gps_antenna.go:8-11 *)
Record GPSAntenna := mkGPSAntenna {
  GPSAntenna_GPSAntennaLateral : GPSAntennaLateral;
  GPSAntenna_GPSAntennaLongitudinal : GPSAntennaLongitudinal }.

(* pkg/bds/bds65/fields/horizontal_reference_direction.go:8 *)
Definition HorizontalReferenceDirection := Z.

(* pkg/bds/bds65/fields/length_width.go:8 *)
Definition LengthWidth := Z.

(* pkg/bds/bds65/fields/navigation_accuracy_category_velocity.go:8 *)
Definition NavigationAccuracyCategoryVelocity := Z.

(* pkg/bds/bds65/fields/navigational_accuracy_category_position_v1.go:8 *)
Definition NavigationalAccuracyCategoryPositionV1 := Z.

(* pkg/bds/bds65/fields/navigational_accuracy_category_position_v2.go:8 *)
Definition NavigationalAccuracyCategoryPositionV2 := Z.

(* pkg/bds/bds65/fields/nic_baro.go:8 *)
Definition NICBaro := Z.

(* pkg/bds/bds65/fields/nic_supplement_a.go:8 *)
Definition NICSupplementA := Z.

(* pkg/bds/bds65/fields/nic_supplement_c.go:8 *)
Definition NICSupplementC := Z.

(* pkg/bds/bds65/fields/receiving_atc_services.go:8 *)
Definition ReceivingATCServices := Z.

(* pkg/bds/bds65/fields/operational_mode.go:8-12 *)
Record OperationalMode := mkOperationalMode {
  OperationalMode_ACASResolutionAdvisoryActive : ACASResolutionAdvisoryActiveV1;
  OperationalMode_IdentSwitchActive : IdentSwitchActive;
  OperationalMode_ReceivingATCServices : ReceivingATCServices }.

(* pkg/bds/bds65/fields/position_offset_applied.go:8 *)
Definition PositionOffsetApplied := Z.

(* pkg/bds/bds65/fields/source_integrity_level.go:8 *)
Definition SourceIntegrityLevel := Z.

(* pkg/bds/bds65/fields/source_integrity_level_supplement.go:8 *)
Definition SourceIntegrityLevelSupplement := Z.

(* pkg/bds/bds65/fields/subtype.go:10 *)
Definition Subtype := Z.

(* pkg/bds/bds65/fields/surface_capability_class_v1.go:8-12 *)
Record SurfaceCapabilityClassV1 := mkSurfaceCapabilityClassV1 {
  SurfaceCapabilityClassV1_PositionOffsetApplied : PositionOffsetApplied;
  SurfaceCapabilityClassV1_CockpitDisplayOfTrafficInformationStatus : CockpitDisplayOfTrafficInformationStatus;
  SurfaceCapabilityClassV1_B2Low : B2Low }.

(* pkg/bds/bds65/fields/surface_capability_class_v2.go:10-16 *)
Record SurfaceCapabilityClassV2 := mkSurfaceCapabilityClassV2 {
  SurfaceCapabilityClassV2_ExtendedSquitterIn : ExtendedSquitterIn;
  SurfaceCapabilityClassV2_B2Low : B2Low;
  SurfaceCapabilityClassV2_UniversalAccessTransceiverCapability : UniversalAccessTransceiverCapability;
  SurfaceCapabilityClassV2_NavigationAccuracyCategoryVelocity : NavigationAccuracyCategoryVelocity;
  SurfaceCapabilityClassV2_NICSupplementC : NICSupplementC }.

(* pkg/bds/bds65/fields/surface_operational_capabilities.go:8 *)
Definition SurfaceOperationalCapabilities := Z.

(* pkg/bds/bds65/fields/surface_operational_capability_status.go:8 *)
Definition SurfaceOperationalCapabilityStatus := Z.

(* pkg/bds/bds65/fields/surface_operational_mode.go:11-17 *)
Record SurfaceOperationalMode := mkSurfaceOperationalMode {
  SurfaceOperationalMode_ACASResolutionAdvisoryActive : ACASResolutionAdvisoryActiveV2;
  SurfaceOperationalMode_IdentSwitchActive : IdentSwitchActive;
  SurfaceOperationalMode_SingleAntennaFlag : SingleAntennaFlag;
  SurfaceOperationalMode_SystemDesignAssurance : SystemDesignAssurance;
  SurfaceOperationalMode_GPSAntenna : GPSAntenna }.

(* pkg/bds/bds65/fields/surveillance_integrity_level.go:8 *)
Definition SurveillanceIntegrityLevel := Z.

(* pkg/bds/bds65/fields/terminal_area_operational_capabilities.go:8 *)
Definition TerminalAreaOperationalCapabilities := Z.

(* pkg/bds/bds65/fields/terminal_area_operational_capability_status.go:8 *)
Definition TerminalAreaOperationalCapabilityStatus := Z.

(* pkg/bds/bds65/fields/track_angle_heading.go:8 *)
Definition TrackAngleHeading := Z.

(* pkg/bds/bds65/fields/version_number.go:8 *)
Definition VersionNumber := Z.

Definition AONotOperational : ACASOperational := 0. (* pkg/bds/bds65/fields/acas_operational.go:12 *)

Definition AOOperational : ACASOperational := 1. (* pkg/bds/bds65/fields/acas_operational.go:14 *)

Definition ARAV1NotActive : ACASResolutionAdvisoryActiveV1 := 0. (* pkg/bds/bds65/fields/acas_resolution_advisory_active_v1.go:12 *)

Definition ARAV1Active : ACASResolutionAdvisoryActiveV1 := 1. (* pkg/bds/bds65/fields/acas_resolution_advisory_active_v1.go:14 *)

Definition ARAV2NotActive : ACASResolutionAdvisoryActiveV2 := 0. (* pkg/bds/bds65/fields/acas_resolution_advisory_active_v2.go:12 *)

Definition ARAV2Active : ACASResolutionAdvisoryActiveV2 := 1. (* pkg/bds/bds65/fields/acas_resolution_advisory_active_v2.go:14 *)

Definition ARVNoCapability : AirReferencedVelocityReportCapability := 0. (* pkg/bds/bds65/fields/air_referenced_velocity_report_capability.go:12 *)

Definition ARVCapable : AirReferencedVelocityReportCapability := 1. (* pkg/bds/bds65/fields/air_referenced_velocity_report_capability.go:14 *)

Definition ALOCReserved0 : ApproachLandingOperationalCapabilities := 0. (* pkg/bds/bds65/fields/approach_landing_operational_capabilities.go:12 *)

Definition ALOCReserved1 : ApproachLandingOperationalCapabilities := 1. (* pkg/bds/bds65/fields/approach_landing_operational_capabilities.go:14 *)

Definition ALOCReserved2 : ApproachLandingOperationalCapabilities := 2. (* pkg/bds/bds65/fields/approach_landing_operational_capabilities.go:16 *)

Definition ALOCReserved3 : ApproachLandingOperationalCapabilities := 3. (* pkg/bds/bds65/fields/approach_landing_operational_capabilities.go:18 *)

Definition ALOCReserved4 : ApproachLandingOperationalCapabilities := 4. (* pkg/bds/bds65/fields/approach_landing_operational_capabilities.go:20 *)

Definition ALOCReserved5 : ApproachLandingOperationalCapabilities := 5. (* pkg/bds/bds65/fields/approach_landing_operational_capabilities.go:22 *)

Definition ALOCReserved6 : ApproachLandingOperationalCapabilities := 6. (* pkg/bds/bds65/fields/approach_landing_operational_capabilities.go:24 *)

Definition ALOCReserved7 : ApproachLandingOperationalCapabilities := 7. (* pkg/bds/bds65/fields/approach_landing_operational_capabilities.go:26 *)

Definition ALOCReserved8 : ApproachLandingOperationalCapabilities := 8. (* pkg/bds/bds65/fields/approach_landing_operational_capabilities.go:28 *)

Definition ALOCReserved9 : ApproachLandingOperationalCapabilities := 9. (* pkg/bds/bds65/fields/approach_landing_operational_capabilities.go:30 *)

Definition ALOCReserved10 : ApproachLandingOperationalCapabilities := 10. (* pkg/bds/bds65/fields/approach_landing_operational_capabilities.go:32 *)

Definition ALOCReserved11 : ApproachLandingOperationalCapabilities := 11. (* pkg/bds/bds65/fields/approach_landing_operational_capabilities.go:34 *)

Definition ALOCReserved12 : ApproachLandingOperationalCapabilities := 12. (* pkg/bds/bds65/fields/approach_landing_operational_capabilities.go:36 *)

Definition ALOCReserved13 : ApproachLandingOperationalCapabilities := 13. (* pkg/bds/bds65/fields/approach_landing_operational_capabilities.go:38 *)

Definition ALOCReserved14 : ApproachLandingOperationalCapabilities := 14. (* pkg/bds/bds65/fields/approach_landing_operational_capabilities.go:40 *)

Definition ALOCReserved15 : ApproachLandingOperationalCapabilities := 15. (* pkg/bds/bds65/fields/approach_landing_operational_capabilities.go:42 *)

Definition ALOCSReserved0 : ApproachLandingOperationalCapabilityStatus := 0. (* pkg/bds/bds65/fields/approach_landing_operational_capability_status.go:12 *)

Definition ALOCSReserved1 : ApproachLandingOperationalCapabilityStatus := 1. (* pkg/bds/bds65/fields/approach_landing_operational_capability_status.go:14 *)

Definition ALOCSReserved2 : ApproachLandingOperationalCapabilityStatus := 2. (* pkg/bds/bds65/fields/approach_landing_operational_capability_status.go:16 *)

Definition ALOCSReserved3 : ApproachLandingOperationalCapabilityStatus := 3. (* pkg/bds/bds65/fields/approach_landing_operational_capability_status.go:18 *)

Definition ALOCSReserved4 : ApproachLandingOperationalCapabilityStatus := 4. (* pkg/bds/bds65/fields/approach_landing_operational_capability_status.go:20 *)

Definition ALOCSReserved5 : ApproachLandingOperationalCapabilityStatus := 5. (* pkg/bds/bds65/fields/approach_landing_operational_capability_status.go:22 *)

Definition ALOCSReserved6 : ApproachLandingOperationalCapabilityStatus := 6. (* pkg/bds/bds65/fields/approach_landing_operational_capability_status.go:24 *)

Definition ALOCSReserved7 : ApproachLandingOperationalCapabilityStatus := 7. (* pkg/bds/bds65/fields/approach_landing_operational_capability_status.go:26 *)

Definition ALOCSReserved8 : ApproachLandingOperationalCapabilityStatus := 8. (* pkg/bds/bds65/fields/approach_landing_operational_capability_status.go:28 *)

Definition ALOCSReserved9 : ApproachLandingOperationalCapabilityStatus := 9. (* pkg/bds/bds65/fields/approach_landing_operational_capability_status.go:30 *)

Definition ALOCSReserved10 : ApproachLandingOperationalCapabilityStatus := 10. (* pkg/bds/bds65/fields/approach_landing_operational_capability_status.go:32 *)

Definition ALOCSReserved11 : ApproachLandingOperationalCapabilityStatus := 11. (* pkg/bds/bds65/fields/approach_landing_operational_capability_status.go:34 *)

Definition ALOCSReserved12 : ApproachLandingOperationalCapabilityStatus := 12. (* pkg/bds/bds65/fields/approach_landing_operational_capability_status.go:36 *)

Definition ALOCSReserved13 : ApproachLandingOperationalCapabilityStatus := 13. (* pkg/bds/bds65/fields/approach_landing_operational_capability_status.go:38 *)

Definition ALOCSReserved14 : ApproachLandingOperationalCapabilityStatus := 14. (* pkg/bds/bds65/fields/approach_landing_operational_capability_status.go:40 *)

Definition ALOCSReserved15 : ApproachLandingOperationalCapabilityStatus := 15. (* pkg/bds/bds65/fields/approach_landing_operational_capability_status.go:42 *)

Definition B2LGreaterThan70W : B2Low := 0. (* pkg/bds/bds65/fields/b2_low.go:12 *)

Definition B2LLessThan70W : B2Low := 1. (* pkg/bds/bds65/fields/b2_low.go:14 *)

Definition CDTINotOperational : CockpitDisplayOfTrafficInformationStatus := 0. (* pkg/bds/bds65/fields/cockpit_display_traffic_information_status.go:12 *)

Definition CDTIOperational : CockpitDisplayOfTrafficInformationStatus := 1. (* pkg/bds/bds65/fields/cockpit_display_traffic_information_status.go:14 *)

Definition EROCReserved0 : EnRouteOperationalCapabilities := 0. (* pkg/bds/bds65/fields/en_route_operational_capabilities.go:12 *)

Definition EROCReserved1 : EnRouteOperationalCapabilities := 1. (* pkg/bds/bds65/fields/en_route_operational_capabilities.go:14 *)

Definition EROCReserved2 : EnRouteOperationalCapabilities := 2. (* pkg/bds/bds65/fields/en_route_operational_capabilities.go:16 *)

Definition EROCReserved3 : EnRouteOperationalCapabilities := 3. (* pkg/bds/bds65/fields/en_route_operational_capabilities.go:18 *)

Definition EROCReserved4 : EnRouteOperationalCapabilities := 4. (* pkg/bds/bds65/fields/en_route_operational_capabilities.go:20 *)

Definition EROCReserved5 : EnRouteOperationalCapabilities := 5. (* pkg/bds/bds65/fields/en_route_operational_capabilities.go:22 *)

Definition EROCReserved6 : EnRouteOperationalCapabilities := 6. (* pkg/bds/bds65/fields/en_route_operational_capabilities.go:24 *)

Definition EROCReserved7 : EnRouteOperationalCapabilities := 7. (* pkg/bds/bds65/fields/en_route_operational_capabilities.go:26 *)

Definition EROCReserved8 : EnRouteOperationalCapabilities := 8. (* pkg/bds/bds65/fields/en_route_operational_capabilities.go:28 *)

Definition EROCReserved9 : EnRouteOperationalCapabilities := 9. (* pkg/bds/bds65/fields/en_route_operational_capabilities.go:30 *)

Definition EROCReserved10 : EnRouteOperationalCapabilities := 10. (* pkg/bds/bds65/fields/en_route_operational_capabilities.go:32 *)

Definition EROCReserved11 : EnRouteOperationalCapabilities := 11. (* pkg/bds/bds65/fields/en_route_operational_capabilities.go:34 *)

Definition EROCReserved12 : EnRouteOperationalCapabilities := 12. (* pkg/bds/bds65/fields/en_route_operational_capabilities.go:36 *)

Definition EROCReserved13 : EnRouteOperationalCapabilities := 13. (* pkg/bds/bds65/fields/en_route_operational_capabilities.go:38 *)

Definition EROCReserved14 : EnRouteOperationalCapabilities := 14. (* pkg/bds/bds65/fields/en_route_operational_capabilities.go:40 *)

Definition EROCReserved15 : EnRouteOperationalCapabilities := 15. (* pkg/bds/bds65/fields/en_route_operational_capabilities.go:42 *)

Definition EROCSReserved0 : EnRouteOperationalCapabilityStatus := 0. (* pkg/bds/bds65/fields/en_route_operational_capability_status.go:12 *)

Definition EROCSReserved1 : EnRouteOperationalCapabilityStatus := 1. (* pkg/bds/bds65/fields/en_route_operational_capability_status.go:14 *)

Definition EROCSReserved2 : EnRouteOperationalCapabilityStatus := 2. (* pkg/bds/bds65/fields/en_route_operational_capability_status.go:16 *)

Definition EROCSReserved3 : EnRouteOperationalCapabilityStatus := 3. (* pkg/bds/bds65/fields/en_route_operational_capability_status.go:18 *)

Definition EROCSReserved4 : EnRouteOperationalCapabilityStatus := 4. (* pkg/bds/bds65/fields/en_route_operational_capability_status.go:20 *)

Definition EROCSReserved5 : EnRouteOperationalCapabilityStatus := 5. (* pkg/bds/bds65/fields/en_route_operational_capability_status.go:22 *)

Definition EROCSReserved6 : EnRouteOperationalCapabilityStatus := 6. (* pkg/bds/bds65/fields/en_route_operational_capability_status.go:24 *)

Definition EROCSReserved7 : EnRouteOperationalCapabilityStatus := 7. (* pkg/bds/bds65/fields/en_route_operational_capability_status.go:26 *)

Definition EROCSReserved8 : EnRouteOperationalCapabilityStatus := 8. (* pkg/bds/bds65/fields/en_route_operational_capability_status.go:28 *)

Definition EROCSReserved9 : EnRouteOperationalCapabilityStatus := 9. (* pkg/bds/bds65/fields/en_route_operational_capability_status.go:30 *)

Definition EROCSReserved10 : EnRouteOperationalCapabilityStatus := 10. (* pkg/bds/bds65/fields/en_route_operational_capability_status.go:32 *)

Definition EROCSReserved11 : EnRouteOperationalCapabilityStatus := 11. (* pkg/bds/bds65/fields/en_route_operational_capability_status.go:34 *)

Definition EROCSReserved12 : EnRouteOperationalCapabilityStatus := 12. (* pkg/bds/bds65/fields/en_route_operational_capability_status.go:36 *)

Definition EROCSReserved13 : EnRouteOperationalCapabilityStatus := 13. (* pkg/bds/bds65/fields/en_route_operational_capability_status.go:38 *)

Definition EROCSReserved14 : EnRouteOperationalCapabilityStatus := 14. (* pkg/bds/bds65/fields/en_route_operational_capability_status.go:40 *)

Definition EROCSReserved15 : EnRouteOperationalCapabilityStatus := 15. (* pkg/bds/bds65/fields/en_route_operational_capability_status.go:42 *)

Definition ESINoCapability : ExtendedSquitterIn := 0. (* pkg/bds/bds65/fields/extended_squitter_in.go:12 *)

Definition ESICapable : ExtendedSquitterIn := 1. (* pkg/bds/bds65/fields/extended_squitter_in.go:14 *)

Definition GVAUnknownOrGreaterThan150m : GeometricVerticalAccuracy := 0. (* pkg/bds/bds65/fields/geometric_vertical_accuracy.go:12 *)

Definition GVALowerThan150m : GeometricVerticalAccuracy := 1. (* pkg/bds/bds65/fields/geometric_vertical_accuracy.go:14 *)

Definition GVALowerThan45m : GeometricVerticalAccuracy := 2. (* pkg/bds/bds65/fields/geometric_vertical_accuracy.go:16 *)

Definition GVAReserved3 : GeometricVerticalAccuracy := 3. (* pkg/bds/bds65/fields/geometric_vertical_accuracy.go:18 *)

Definition GLATNoData : GPSAntennaLateral := 0. (* pkg/bds/bds65/fields/gps_antenna_lateral.go:12 *)

Definition GLATLeft2Meters : GPSAntennaLateral := 1. (* pkg/bds/bds65/fields/gps_antenna_lateral.go:14 *)

Definition GLATLeft4Meters : GPSAntennaLateral := 2. (* pkg/bds/bds65/fields/gps_antenna_lateral.go:16 *)

Definition GLATLeft6Meters : GPSAntennaLateral := 3. (* pkg/bds/bds65/fields/gps_antenna_lateral.go:18 *)

Definition GLATRight0Meter : GPSAntennaLateral := 4. (* pkg/bds/bds65/fields/gps_antenna_lateral.go:20 *)

Definition GLATRight02Meters : GPSAntennaLateral := 5. (* pkg/bds/bds65/fields/gps_antenna_lateral.go:22 *)

Definition GLATRight4Meters : GPSAntennaLateral := 6. (* pkg/bds/bds65/fields/gps_antenna_lateral.go:24 *)

Definition GLATRight6Meters : GPSAntennaLateral := 7. (* pkg/bds/bds65/fields/gps_antenna_lateral.go:26 *)

Definition GLONNoData : GPSAntennaLongitudinal := 0. (* pkg/bds/bds65/fields/gps_antenna_longitudinal.go:12 *)

Definition GLONCompensatedBySensor : GPSAntennaLongitudinal := 1. (* pkg/bds/bds65/fields/gps_antenna_longitudinal.go:14 *)

Definition GLON2Meters : GPSAntennaLongitudinal := 2. (* pkg/bds/bds65/fields/gps_antenna_longitudinal.go:17 *)

Definition GLON4Meters : GPSAntennaLongitudinal := 3. (* pkg/bds/bds65/fields/gps_antenna_longitudinal.go:19 *)

Definition GLON6Meters : GPSAntennaLongitudinal := 4. (* pkg/bds/bds65/fields/gps_antenna_longitudinal.go:21 *)

Definition GLON8Meters : GPSAntennaLongitudinal := 5. (* pkg/bds/bds65/fields/gps_antenna_longitudinal.go:23 *)

Definition GLON10Meters : GPSAntennaLongitudinal := 6. (* pkg/bds/bds65/fields/gps_antenna_longitudinal.go:26 *)

Definition GLON12Meters : GPSAntennaLongitudinal := 7. (* pkg/bds/bds65/fields/gps_antenna_longitudinal.go:28 *)

Definition GLON14Meters : GPSAntennaLongitudinal := 8. (* pkg/bds/bds65/fields/gps_antenna_longitudinal.go:30 *)

Definition GLON16Meters : GPSAntennaLongitudinal := 9. (* pkg/bds/bds65/fields/gps_antenna_longitudinal.go:32 *)

Definition GLON18Meters : GPSAntennaLongitudinal := 10. (* pkg/bds/bds65/fields/gps_antenna_longitudinal.go:34 *)

Definition GLON20Meters : GPSAntennaLongitudinal := 11. (* pkg/bds/bds65/fields/gps_antenna_longitudinal.go:37 *)

Definition GLON22Meters : GPSAntennaLongitudinal := 12. (* pkg/bds/bds65/fields/gps_antenna_longitudinal.go:39 *)

Definition GLON24Meters : GPSAntennaLongitudinal := 13. (* pkg/bds/bds65/fields/gps_antenna_longitudinal.go:41 *)

Definition GLON26Meters : GPSAntennaLongitudinal := 14. (* pkg/bds/bds65/fields/gps_antenna_longitudinal.go:43 *)

Definition GLON28Meters : GPSAntennaLongitudinal := 15. (* pkg/bds/bds65/fields/gps_antenna_longitudinal.go:45 *)

Definition GLON30Meters : GPSAntennaLongitudinal := 16. (* pkg/bds/bds65/fields/gps_antenna_longitudinal.go:48 *)

Definition GLON32Meters : GPSAntennaLongitudinal := 17. (* pkg/bds/bds65/fields/gps_antenna_longitudinal.go:50 *)

Definition GLON34Meters : GPSAntennaLongitudinal := 18. (* pkg/bds/bds65/fields/gps_antenna_longitudinal.go:52 *)

Definition GLON36Meters : GPSAntennaLongitudinal := 19. (* pkg/bds/bds65/fields/gps_antenna_longitudinal.go:54 *)

Definition GLON38Meters : GPSAntennaLongitudinal := 20. (* pkg/bds/bds65/fields/gps_antenna_longitudinal.go:56 *)

Definition GLON40Meters : GPSAntennaLongitudinal := 21. (* pkg/bds/bds65/fields/gps_antenna_longitudinal.go:59 *)

Definition GLON42Meters : GPSAntennaLongitudinal := 22. (* pkg/bds/bds65/fields/gps_antenna_longitudinal.go:61 *)

Definition GLON44Meters : GPSAntennaLongitudinal := 23. (* pkg/bds/bds65/fields/gps_antenna_longitudinal.go:63 *)

Definition GLON46Meters : GPSAntennaLongitudinal := 24. (* pkg/bds/bds65/fields/gps_antenna_longitudinal.go:65 *)

Definition GLON48Meters : GPSAntennaLongitudinal := 25. (* pkg/bds/bds65/fields/gps_antenna_longitudinal.go:67 *)

Definition GLON50Meters : GPSAntennaLongitudinal := 26. (* pkg/bds/bds65/fields/gps_antenna_longitudinal.go:70 *)

Definition GLON52Meters : GPSAntennaLongitudinal := 27. (* pkg/bds/bds65/fields/gps_antenna_longitudinal.go:72 *)

Definition GLON54Meters : GPSAntennaLongitudinal := 28. (* pkg/bds/bds65/fields/gps_antenna_longitudinal.go:74 *)

Definition GLON56Meters : GPSAntennaLongitudinal := 29. (* pkg/bds/bds65/fields/gps_antenna_longitudinal.go:76 *)

Definition GLON58Meters : GPSAntennaLongitudinal := 30. (* pkg/bds/bds65/fields/gps_antenna_longitudinal.go:78 *)

Definition GLON60Meters : GPSAntennaLongitudinal := 31. (* pkg/bds/bds65/fields/gps_antenna_longitudinal.go:81 *)

Definition HRDTrueNorth : HorizontalReferenceDirection := 0. (* pkg/bds/bds65/fields/horizontal_reference_direction.go:12 *)

Definition HRDMagneticNorth : HorizontalReferenceDirection := 1. (* pkg/bds/bds65/fields/horizontal_reference_direction.go:14 *)

Definition ISANotActive : IdentSwitchActive := 0. (* pkg/bds/bds65/fields/ident_switch_active.go:12 *)

Definition ISAActive : IdentSwitchActive := 1. (* pkg/bds/bds65/fields/ident_switch_active.go:14 *)

Definition LWLength15Width11Point5 : LengthWidth := 0. (* pkg/bds/bds65/fields/length_width.go:12 *)

Definition LWLength15Width23 : LengthWidth := 1. (* pkg/bds/bds65/fields/length_width.go:14 *)

Definition LWLength25Width28Point5 : LengthWidth := 2. (* pkg/bds/bds65/fields/length_width.go:16 *)

Definition LWLength25Width34 : LengthWidth := 3. (* pkg/bds/bds65/fields/length_width.go:18 *)

Definition LWLength35Width33 : LengthWidth := 4. (* pkg/bds/bds65/fields/length_width.go:20 *)

Definition LWLength35Width38 : LengthWidth := 5. (* pkg/bds/bds65/fields/length_width.go:22 *)

Definition LWLength45Width39Point5 : LengthWidth := 6. (* pkg/bds/bds65/fields/length_width.go:24 *)

Definition LWLength45Width45 : LengthWidth := 7. (* pkg/bds/bds65/fields/length_width.go:26 *)

Definition LWLength55Width45 : LengthWidth := 8. (* pkg/bds/bds65/fields/length_width.go:28 *)

Definition LWLength55Width52 : LengthWidth := 9. (* pkg/bds/bds65/fields/length_width.go:30 *)

Definition LWLength65Width59Point5 : LengthWidth := 10. (* pkg/bds/bds65/fields/length_width.go:32 *)

Definition LWLength65Width67 : LengthWidth := 11. (* pkg/bds/bds65/fields/length_width.go:34 *)

Definition LWLength75Width72Point5 : LengthWidth := 12. (* pkg/bds/bds65/fields/length_width.go:36 *)

Definition LWLength75Width80 : LengthWidth := 13. (* pkg/bds/bds65/fields/length_width.go:38 *)

Definition LWLength85Width80 : LengthWidth := 14. (* pkg/bds/bds65/fields/length_width.go:40 *)

Definition LWLength85Width90 : LengthWidth := 15. (* pkg/bds/bds65/fields/length_width.go:42 *)

Definition NACV1PEPUGreaterThan18Point52Km : NavigationalAccuracyCategoryPositionV1 := 0. (* pkg/bds/bds65/fields/navigational_accuracy_category_position_v1.go:12 *)

Definition NACV1PEPULowerThan18Point52Km : NavigationalAccuracyCategoryPositionV1 := 1. (* pkg/bds/bds65/fields/navigational_accuracy_category_position_v1.go:14 *)

Definition NACV1PEPULowerThan7Point408Km : NavigationalAccuracyCategoryPositionV1 := 2. (* pkg/bds/bds65/fields/navigational_accuracy_category_position_v1.go:16 *)

Definition NACV1PEPULowerThan3Point704Km : NavigationalAccuracyCategoryPositionV1 := 3. (* pkg/bds/bds65/fields/navigational_accuracy_category_position_v1.go:18 *)

Definition NACV1PEPUGreaterThan1852M : NavigationalAccuracyCategoryPositionV1 := 4. (* pkg/bds/bds65/fields/navigational_accuracy_category_position_v1.go:20 *)

Definition NACV1PEPULowerThan926M : NavigationalAccuracyCategoryPositionV1 := 5. (* pkg/bds/bds65/fields/navigational_accuracy_category_position_v1.go:22 *)

Definition NACV1PEPUGreaterThan555Point6M : NavigationalAccuracyCategoryPositionV1 := 6. (* pkg/bds/bds65/fields/navigational_accuracy_category_position_v1.go:24 *)

Definition NACV1PEPULowerThan185Point2M : NavigationalAccuracyCategoryPositionV1 := 7. (* pkg/bds/bds65/fields/navigational_accuracy_category_position_v1.go:26 *)

Definition NACV1PEPUGreaterThan92Point6M : NavigationalAccuracyCategoryPositionV1 := 8. (* pkg/bds/bds65/fields/navigational_accuracy_category_position_v1.go:28 *)

Definition NACV1PEPULowerThan30MAndVEPULowerThan45M : NavigationalAccuracyCategoryPositionV1 := 9. (* pkg/bds/bds65/fields/navigational_accuracy_category_position_v1.go:30 *)

Definition NACV1PEPULowerThan10MAndVEPULowerThan15M : NavigationalAccuracyCategoryPositionV1 := 10. (* pkg/bds/bds65/fields/navigational_accuracy_category_position_v1.go:32 *)

Definition NACV1PEPULowerThan3MAndVEPULowerThan4M : NavigationalAccuracyCategoryPositionV1 := 11. (* pkg/bds/bds65/fields/navigational_accuracy_category_position_v1.go:34 *)

Definition NACV1PReserved12 : NavigationalAccuracyCategoryPositionV1 := 12. (* pkg/bds/bds65/fields/navigational_accuracy_category_position_v1.go:36 *)

Definition NACV1PReserved13 : NavigationalAccuracyCategoryPositionV1 := 13. (* pkg/bds/bds65/fields/navigational_accuracy_category_position_v1.go:38 *)

Definition NACV1PReserved14 : NavigationalAccuracyCategoryPositionV1 := 14. (* pkg/bds/bds65/fields/navigational_accuracy_category_position_v1.go:40 *)

Definition NACV1PReserved15 : NavigationalAccuracyCategoryPositionV1 := 15. (* pkg/bds/bds65/fields/navigational_accuracy_category_position_v1.go:42 *)

Definition NACV2PEPUGreaterThan18Point52Km : NavigationalAccuracyCategoryPositionV2 := 0. (* pkg/bds/bds65/fields/navigational_accuracy_category_position_v2.go:12 *)

Definition NACV2PEPULowerThan18Point52Km : NavigationalAccuracyCategoryPositionV2 := 1. (* pkg/bds/bds65/fields/navigational_accuracy_category_position_v2.go:14 *)

Definition NACV2PEPULowerThan7Point408Km : NavigationalAccuracyCategoryPositionV2 := 2. (* pkg/bds/bds65/fields/navigational_accuracy_category_position_v2.go:16 *)

Definition NACV2PEPULowerThan3Point704Km : NavigationalAccuracyCategoryPositionV2 := 3. (* pkg/bds/bds65/fields/navigational_accuracy_category_position_v2.go:18 *)

Definition NACV2PEPUGreaterThan1852M : NavigationalAccuracyCategoryPositionV2 := 4. (* pkg/bds/bds65/fields/navigational_accuracy_category_position_v2.go:20 *)

Definition NACV2PEPULowerThan926M : NavigationalAccuracyCategoryPositionV2 := 5. (* pkg/bds/bds65/fields/navigational_accuracy_category_position_v2.go:22 *)

Definition NACV2PEPUGreaterThan555Point6M : NavigationalAccuracyCategoryPositionV2 := 6. (* pkg/bds/bds65/fields/navigational_accuracy_category_position_v2.go:24 *)

Definition NACV2PEPULowerThan185Point2M : NavigationalAccuracyCategoryPositionV2 := 7. (* pkg/bds/bds65/fields/navigational_accuracy_category_position_v2.go:26 *)

Definition NACV2PEPUGreaterThan92Point6M : NavigationalAccuracyCategoryPositionV2 := 8. (* pkg/bds/bds65/fields/navigational_accuracy_category_position_v2.go:28 *)

Definition NACV2PEPULowerThan30M : NavigationalAccuracyCategoryPositionV2 := 9. (* pkg/bds/bds65/fields/navigational_accuracy_category_position_v2.go:30 *)

Definition NACV2PEPULowerThan10M : NavigationalAccuracyCategoryPositionV2 := 10. (* pkg/bds/bds65/fields/navigational_accuracy_category_position_v2.go:32 *)

Definition NACV2PEPULowerThan3M : NavigationalAccuracyCategoryPositionV2 := 11. (* pkg/bds/bds65/fields/navigational_accuracy_category_position_v2.go:34 *)

Definition NACV2PReserved12 : NavigationalAccuracyCategoryPositionV2 := 12. (* pkg/bds/bds65/fields/navigational_accuracy_category_position_v2.go:36 *)

Definition NACV2PReserved13 : NavigationalAccuracyCategoryPositionV2 := 13. (* pkg/bds/bds65/fields/navigational_accuracy_category_position_v2.go:38 *)

Definition NACV2PReserved14 : NavigationalAccuracyCategoryPositionV2 := 14. (* pkg/bds/bds65/fields/navigational_accuracy_category_position_v2.go:40 *)

Definition NACV2PReserved15 : NavigationalAccuracyCategoryPositionV2 := 15. (* pkg/bds/bds65/fields/navigational_accuracy_category_position_v2.go:42 *)

Definition NICBGilhamNotCrossChecked : NICBaro := 0. (* pkg/bds/bds65/fields/nic_baro.go:14 *)

Definition NICBGilhamCrossCheckedOrNonGilham : NICBaro := 1. (* pkg/bds/bds65/fields/nic_baro.go:18 *)

Definition NICAZero : NICSupplementA := 0. (* pkg/bds/bds65/fields/nic_supplement_a.go:12 *)

Definition NICAOne : NICSupplementA := 1. (* pkg/bds/bds65/fields/nic_supplement_a.go:14 *)

Definition NICCSZero : NICSupplementC := 0. (* pkg/bds/bds65/fields/nic_supplement_c.go:12 *)

Definition NICCSOne : NICSupplementC := 1. (* pkg/bds/bds65/fields/nic_supplement_c.go:14 *)

Definition NotACASStatusOperationalUnknown : NotACASStatus := 0. (* pkg/bds/bds65/fields/not_acas_status.go:12 *)

Definition NotACASStatusNotInstalledNotOperational : NotACASStatus := 1. (* pkg/bds/bds65/fields/not_acas_status.go:14 *)

Definition POANotADSB : PositionOffsetApplied := 0. (* pkg/bds/bds65/fields/position_offset_applied.go:12 *)

Definition POAIsADSB : PositionOffsetApplied := 1. (* pkg/bds/bds65/fields/position_offset_applied.go:14 *)

Definition RASNotReceivingATC : ReceivingATCServices := 0. (* pkg/bds/bds65/fields/receiving_atc_services.go:12 *)

Definition RASReceivingATC : ReceivingATCServices := 1. (* pkg/bds/bds65/fields/receiving_atc_services.go:14 *)

Definition SAFTwoAntennas : SingleAntennaFlag := 0. (* pkg/bds/bds65/fields/single_antenna_flag.go:12 *)

Definition SAFOneAntenna : SingleAntennaFlag := 1. (* pkg/bds/bds65/fields/single_antenna_flag.go:14 *)

Definition SILLevel0 : SourceIntegrityLevel := 0. (* pkg/bds/bds65/fields/source_integrity_level.go:12 *)

Definition SILLevel1 : SourceIntegrityLevel := 1. (* pkg/bds/bds65/fields/source_integrity_level.go:14 *)

Definition SILLevel2 : SourceIntegrityLevel := 2. (* pkg/bds/bds65/fields/source_integrity_level.go:16 *)

Definition SILLevel3 : SourceIntegrityLevel := 3. (* pkg/bds/bds65/fields/source_integrity_level.go:18 *)

Definition SILSByHour : SourceIntegrityLevelSupplement := 0. (* pkg/bds/bds65/fields/source_integrity_level_supplement.go:12 *)

Definition SILSBySample : SourceIntegrityLevelSupplement := 1. (* pkg/bds/bds65/fields/source_integrity_level_supplement.go:14 *)

Definition SubtypeAirborne : Subtype := 0. (* pkg/bds/bds65/fields/subtype.go:14 *)

Definition SubtypeSurface : Subtype := 1. (* pkg/bds/bds65/fields/subtype.go:16 *)

Definition SOCReserved0 : SurfaceOperationalCapabilities := 0. (* pkg/bds/bds65/fields/surface_operational_capabilities.go:12 *)

Definition SOCReserved1 : SurfaceOperationalCapabilities := 1. (* pkg/bds/bds65/fields/surface_operational_capabilities.go:14 *)

Definition SOCReserved2 : SurfaceOperationalCapabilities := 2. (* pkg/bds/bds65/fields/surface_operational_capabilities.go:16 *)

Definition SOCReserved3 : SurfaceOperationalCapabilities := 3. (* pkg/bds/bds65/fields/surface_operational_capabilities.go:18 *)

Definition SOCReserved4 : SurfaceOperationalCapabilities := 4. (* pkg/bds/bds65/fields/surface_operational_capabilities.go:20 *)

Definition SOCReserved5 : SurfaceOperationalCapabilities := 5. (* pkg/bds/bds65/fields/surface_operational_capabilities.go:22 *)

Definition SOCReserved6 : SurfaceOperationalCapabilities := 6. (* pkg/bds/bds65/fields/surface_operational_capabilities.go:24 *)

Definition SOCReserved7 : SurfaceOperationalCapabilities := 7. (* pkg/bds/bds65/fields/surface_operational_capabilities.go:26 *)

Definition SOCReserved8 : SurfaceOperationalCapabilities := 8. (* pkg/bds/bds65/fields/surface_operational_capabilities.go:28 *)

Definition SOCReserved9 : SurfaceOperationalCapabilities := 9. (* pkg/bds/bds65/fields/surface_operational_capabilities.go:30 *)

Definition SOCReserved10 : SurfaceOperationalCapabilities := 10. (* pkg/bds/bds65/fields/surface_operational_capabilities.go:32 *)

Definition SOCReserved11 : SurfaceOperationalCapabilities := 11. (* pkg/bds/bds65/fields/surface_operational_capabilities.go:34 *)

Definition SOCReserved12 : SurfaceOperationalCapabilities := 12. (* pkg/bds/bds65/fields/surface_operational_capabilities.go:36 *)

Definition SOCReserved13 : SurfaceOperationalCapabilities := 13. (* pkg/bds/bds65/fields/surface_operational_capabilities.go:38 *)

Definition SOCReserved14 : SurfaceOperationalCapabilities := 14. (* pkg/bds/bds65/fields/surface_operational_capabilities.go:40 *)

Definition SOCReserved15 : SurfaceOperationalCapabilities := 15. (* pkg/bds/bds65/fields/surface_operational_capabilities.go:42 *)

Definition SOCSReserved0 : SurfaceOperationalCapabilityStatus := 0. (* pkg/bds/bds65/fields/surface_operational_capability_status.go:12 *)

Definition SOCSReserved1 : SurfaceOperationalCapabilityStatus := 1. (* pkg/bds/bds65/fields/surface_operational_capability_status.go:14 *)

Definition SOCSReserved2 : SurfaceOperationalCapabilityStatus := 2. (* pkg/bds/bds65/fields/surface_operational_capability_status.go:16 *)

Definition SOCSReserved3 : SurfaceOperationalCapabilityStatus := 3. (* pkg/bds/bds65/fields/surface_operational_capability_status.go:18 *)

Definition SOCSReserved4 : SurfaceOperationalCapabilityStatus := 4. (* pkg/bds/bds65/fields/surface_operational_capability_status.go:20 *)

Definition SOCSReserved5 : SurfaceOperationalCapabilityStatus := 5. (* pkg/bds/bds65/fields/surface_operational_capability_status.go:22 *)

Definition SOCSReserved6 : SurfaceOperationalCapabilityStatus := 6. (* pkg/bds/bds65/fields/surface_operational_capability_status.go:24 *)

Definition SOCSReserved7 : SurfaceOperationalCapabilityStatus := 7. (* pkg/bds/bds65/fields/surface_operational_capability_status.go:26 *)

Definition SOCSReserved8 : SurfaceOperationalCapabilityStatus := 8. (* pkg/bds/bds65/fields/surface_operational_capability_status.go:28 *)

Definition SOCSReserved9 : SurfaceOperationalCapabilityStatus := 9. (* pkg/bds/bds65/fields/surface_operational_capability_status.go:30 *)

Definition SOCSReserved10 : SurfaceOperationalCapabilityStatus := 10. (* pkg/bds/bds65/fields/surface_operational_capability_status.go:32 *)

Definition SOCSReserved11 : SurfaceOperationalCapabilityStatus := 11. (* pkg/bds/bds65/fields/surface_operational_capability_status.go:34 *)

Definition SOCSReserved12 : SurfaceOperationalCapabilityStatus := 12. (* pkg/bds/bds65/fields/surface_operational_capability_status.go:36 *)

Definition SOCSReserved13 : SurfaceOperationalCapabilityStatus := 13. (* pkg/bds/bds65/fields/surface_operational_capability_status.go:38 *)

Definition SOCSReserved14 : SurfaceOperationalCapabilityStatus := 14. (* pkg/bds/bds65/fields/surface_operational_capability_status.go:40 *)

Definition SOCSReserved15 : SurfaceOperationalCapabilityStatus := 15. (* pkg/bds/bds65/fields/surface_operational_capability_status.go:42 *)

Definition SUILLevel0 : SurveillanceIntegrityLevel := 0. (* pkg/bds/bds65/fields/surveillance_integrity_level.go:14 *)

Definition SUILLevel1 : SurveillanceIntegrityLevel := 1. (* pkg/bds/bds65/fields/surveillance_integrity_level.go:18 *)

Definition SUILLevel2 : SurveillanceIntegrityLevel := 2. (* pkg/bds/bds65/fields/surveillance_integrity_level.go:22 *)

Definition SUILLevel3 : SurveillanceIntegrityLevel := 3. (* pkg/bds/bds65/fields/surveillance_integrity_level.go:26 *)

(* pkg/bds/bds65/fields/surveillance_integrity_level.go:29-29 *)
Definition silLabelHorizontal : string := "Probability of exceeding the Horizontal Containment Radius reported in the NIC Subfield without an indication: "%string.

(* pkg/bds/bds65/fields/surveillance_integrity_level.go:30-30 *)
Definition silLabelVertical : string := "Probability of exceeding the Vertical Integrity Containment Region (VPL) without an indication:                "%string.

Definition SDANotApplicable : SystemDesignAssurance := 0. (* pkg/bds/bds65/fields/system_design_assurance.go:12 *)

Definition SDALevelD : SystemDesignAssurance := 1. (* pkg/bds/bds65/fields/system_design_assurance.go:14 *)

Definition SDALevelC : SystemDesignAssurance := 2. (* pkg/bds/bds65/fields/system_design_assurance.go:16 *)

Definition SDALevelB : SystemDesignAssurance := 3. (* pkg/bds/bds65/fields/system_design_assurance.go:18 *)

Definition TCRCNoCapability : TargetChangeReportCapability := 0. (* pkg/bds/bds65/fields/target_change_report_capability.go:12 *)

Definition TCRCCapableTC0Only : TargetChangeReportCapability := 1. (* pkg/bds/bds65/fields/target_change_report_capability.go:14 *)

Definition TCRCCapableMultipleTC : TargetChangeReportCapability := 2. (* pkg/bds/bds65/fields/target_change_report_capability.go:16 *)

Definition TCRCCapableReserved : TargetChangeReportCapability := 3. (* pkg/bds/bds65/fields/target_change_report_capability.go:18 *)

Definition TSRCNoCapability : TargetStateReportCapability := 0. (* pkg/bds/bds65/fields/target_state_report_capability.go:12 *)

Definition TSRCCapable : TargetStateReportCapability := 1. (* pkg/bds/bds65/fields/target_state_report_capability.go:14 *)

Definition TAOCReserved0 : TerminalAreaOperationalCapabilities := 0. (* pkg/bds/bds65/fields/terminal_area_operational_capabilities.go:12 *)

Definition TAOCReserved1 : TerminalAreaOperationalCapabilities := 1. (* pkg/bds/bds65/fields/terminal_area_operational_capabilities.go:14 *)

Definition TAOCReserved2 : TerminalAreaOperationalCapabilities := 2. (* pkg/bds/bds65/fields/terminal_area_operational_capabilities.go:16 *)

Definition TAOCReserved3 : TerminalAreaOperationalCapabilities := 3. (* pkg/bds/bds65/fields/terminal_area_operational_capabilities.go:18 *)

Definition TAOCReserved4 : TerminalAreaOperationalCapabilities := 4. (* pkg/bds/bds65/fields/terminal_area_operational_capabilities.go:20 *)

Definition TAOCReserved5 : TerminalAreaOperationalCapabilities := 5. (* pkg/bds/bds65/fields/terminal_area_operational_capabilities.go:22 *)

Definition TAOCReserved6 : TerminalAreaOperationalCapabilities := 6. (* pkg/bds/bds65/fields/terminal_area_operational_capabilities.go:24 *)

Definition TAOCReserved7 : TerminalAreaOperationalCapabilities := 7. (* pkg/bds/bds65/fields/terminal_area_operational_capabilities.go:26 *)

Definition TAOCReserved8 : TerminalAreaOperationalCapabilities := 8. (* pkg/bds/bds65/fields/terminal_area_operational_capabilities.go:28 *)

Definition TAOCReserved9 : TerminalAreaOperationalCapabilities := 9. (* pkg/bds/bds65/fields/terminal_area_operational_capabilities.go:30 *)

Definition TAOCReserved10 : TerminalAreaOperationalCapabilities := 10. (* pkg/bds/bds65/fields/terminal_area_operational_capabilities.go:32 *)

Definition TAOCReserved11 : TerminalAreaOperationalCapabilities := 11. (* pkg/bds/bds65/fields/terminal_area_operational_capabilities.go:34 *)

Definition TAOCReserved12 : TerminalAreaOperationalCapabilities := 12. (* pkg/bds/bds65/fields/terminal_area_operational_capabilities.go:36 *)

Definition TAOCReserved13 : TerminalAreaOperationalCapabilities := 13. (* pkg/bds/bds65/fields/terminal_area_operational_capabilities.go:38 *)

Definition TAOCReserved14 : TerminalAreaOperationalCapabilities := 14. (* pkg/bds/bds65/fields/terminal_area_operational_capabilities.go:40 *)

Definition TAOCReserved15 : TerminalAreaOperationalCapabilities := 15. (* pkg/bds/bds65/fields/terminal_area_operational_capabilities.go:42 *)

Definition TAOCSReserved0 : TerminalAreaOperationalCapabilityStatus := 0. (* pkg/bds/bds65/fields/terminal_area_operational_capability_status.go:12 *)

Definition TAOCSReserved1 : TerminalAreaOperationalCapabilityStatus := 1. (* pkg/bds/bds65/fields/terminal_area_operational_capability_status.go:14 *)

Definition TAOCSReserved2 : TerminalAreaOperationalCapabilityStatus := 2. (* pkg/bds/bds65/fields/terminal_area_operational_capability_status.go:16 *)

Definition TAOCSReserved3 : TerminalAreaOperationalCapabilityStatus := 3. (* pkg/bds/bds65/fields/terminal_area_operational_capability_status.go:18 *)

Definition TAOCSReserved4 : TerminalAreaOperationalCapabilityStatus := 4. (* pkg/bds/bds65/fields/terminal_area_operational_capability_status.go:20 *)

Definition TAOCSReserved5 : TerminalAreaOperationalCapabilityStatus := 5. (* pkg/bds/bds65/fields/terminal_area_operational_capability_status.go:22 *)

Definition TAOCSReserved6 : TerminalAreaOperationalCapabilityStatus := 6. (* pkg/bds/bds65/fields/terminal_area_operational_capability_status.go:24 *)

Definition TAOCSReserved7 : TerminalAreaOperationalCapabilityStatus := 7. (* pkg/bds/bds65/fields/terminal_area_operational_capability_status.go:26 *)

Definition TAOCSReserved8 : TerminalAreaOperationalCapabilityStatus := 8. (* pkg/bds/bds65/fields/terminal_area_operational_capability_status.go:28 *)

Definition TAOCSReserved9 : TerminalAreaOperationalCapabilityStatus := 9. (* pkg/bds/bds65/fields/terminal_area_operational_capability_status.go:30 *)

Definition TAOCSReserved10 : TerminalAreaOperationalCapabilityStatus := 10. (* pkg/bds/bds65/fields/terminal_area_operational_capability_status.go:32 *)

Definition TAOCSReserved11 : TerminalAreaOperationalCapabilityStatus := 11. (* pkg/bds/bds65/fields/terminal_area_operational_capability_status.go:34 *)

Definition TAOCSReserved12 : TerminalAreaOperationalCapabilityStatus := 12. (* pkg/bds/bds65/fields/terminal_area_operational_capability_status.go:36 *)

Definition TAOCSReserved13 : TerminalAreaOperationalCapabilityStatus := 13. (* pkg/bds/bds65/fields/terminal_area_operational_capability_status.go:38 *)

Definition TAOCSReserved14 : TerminalAreaOperationalCapabilityStatus := 14. (* pkg/bds/bds65/fields/terminal_area_operational_capability_status.go:40 *)

Definition TAOCSReserved15 : TerminalAreaOperationalCapabilityStatus := 15. (* pkg/bds/bds65/fields/terminal_area_operational_capability_status.go:42 *)

Definition TAHTargetHeadingReported : TrackAngleHeading := 0. (* pkg/bds/bds65/fields/track_angle_heading.go:12 *)

Definition TAHTrackAngleReported : TrackAngleHeading := 1. (* pkg/bds/bds65/fields/track_angle_heading.go:14 *)

Definition UATNoCapability : UniversalAccessTransceiverCapability := 0. (* pkg/bds/bds65/fields/universal_access_transceiver_capability.go:12 *)

Definition UATCapable : UniversalAccessTransceiverCapability := 1. (* pkg/bds/bds65/fields/universal_access_transceiver_capability.go:14 *)

Definition ADSBVersion0 : VersionNumber := 0. (* pkg/bds/bds65/fields/version_number.go:12 *)

Definition ADSBVersion1 : VersionNumber := 1. (* pkg/bds/bds65/fields/version_number.go:14 *)

Definition ADSBVersion2 : VersionNumber := 2. (* pkg/bds/bds65/fields/version_number.go:16 *)

(* pkg/bds/bds65/fields/acas_operational.go:18-28 *)
Definition ACASOperational_ToString (status : ACASOperational) : string :=
  if (status =? AONotOperational) then
    "0 - TCAS/ACAS is NOT Operational"%string
  else if (status =? AOOperational) then
    "1 - TCAS/ACAS IS Operational"%string
  else 
    (dec status ++ " - Unknown code"%string)%string.

(* pkg/bds/bds65/fields/acas_operational.go:31-34 *)
Definition ReadACASOperational (data : list Z) : res ACASOperational :=
  let* data1 := idx data 1 in
  let bits := (Z.shiftr (Z.land data1 0x20) 5) in
  Ok bits.

(* pkg/bds/bds65/fields/acas_resolution_advisory_active_v1.go:18-28 *)
Definition ACASResolutionAdvisoryActiveV1_ToString (status : ACASResolutionAdvisoryActiveV1) : string :=
  if (status =? ARAV1NotActive) then
    "0 - ACAS II or ACAS RA not active"%string
  else if (status =? ARAV1Active) then
    "1 - ACAS RA is active"%string
  else 
    (dec status ++ " - Unknown code"%string)%string.

(* pkg/bds/bds65/fields/acas_resolution_advisory_active_v1.go:31-34 *)
Definition ReadACASResolutionAdvisoryActiveV1 (data : list Z) : res ACASResolutionAdvisoryActiveV1 :=
  let* data3 := idx data 3 in
  let bits := (Z.shiftr (Z.land data3 0x20) 5) in
  Ok bits.

(* pkg/bds/bds65/fields/acas_resolution_advisory_active_v2.go:18-28 *)
Definition ACASResolutionAdvisoryActiveV2_ToString (status : ACASResolutionAdvisoryActiveV2) : string :=
  if (status =? ARAV2NotActive) then
    "0 - TCAS II or ACAS RA not active"%string
  else if (status =? ARAV2Active) then
    "1 - TCAS/ACAS RA is active"%string
  else 
    (dec status ++ " - Unknown code"%string)%string.

(* pkg/bds/bds65/fields/acas_resolution_advisory_active_v2.go:31-34 *)
Definition ReadACASResolutionAdvisoryActiveV2 (data : list Z) : res ACASResolutionAdvisoryActiveV2 :=
  let* data3 := idx data 3 in
  let bits := (Z.shiftr (Z.land data3 0x20) 5) in
  Ok bits.

(* pkg/bds/bds65/fields/air_referenced_velocity_report_capability.go:18-28 *)
Definition AirReferencedVelocityReportCapability_ToString (status : AirReferencedVelocityReportCapability) : string :=
  if (status =? ARVNoCapability) then
    "0 - No capability for sending messages to support Air-Referenced Velocity Reports"%string
  else if (status =? ARVCapable) then
    "1 - Capability of sending messages to support Air-Referenced Velocity Reports"%string
  else 
    (dec status ++ " - Unknown code"%string)%string.

(* pkg/bds/bds65/fields/air_referenced_velocity_report_capability.go:31-34 *)
Definition ReadAirReferencedVelocityReportCapability (data : list Z) : res AirReferencedVelocityReportCapability :=
  let* data1 := idx data 1 in
  let bits := (Z.shiftr (Z.land data1 2) 1) in
  Ok bits.

(* pkg/bds/bds65/fields/approach_landing_operational_capabilities.go:46-60 *)
Definition ApproachLandingOperationalCapabilities_ToString (capabilities : ApproachLandingOperationalCapabilities) : string :=
  if (capabilities =? ALOCReserved0) || (capabilities =? ALOCReserved1) || (capabilities =? ALOCReserved2) || (capabilities =? ALOCReserved3) || (capabilities =? ALOCReserved4) || (capabilities =? ALOCReserved5) || (capabilities =? ALOCReserved6) || (capabilities =? ALOCReserved7) || (capabilities =? ALOCReserved8) || (capabilities =? ALOCReserved9) || (capabilities =? ALOCReserved10) || (capabilities =? ALOCReserved11) || (capabilities =? ALOCReserved12) || (capabilities =? ALOCReserved13) || (capabilities =? ALOCReserved14) || (capabilities =? ALOCReserved15) then
    (dec capabilities ++ " - reserved"%string)%string
  else 
    (dec capabilities ++ " - Unknown code"%string)%string.

(* pkg/bds/bds65/fields/approach_landing_operational_capabilities.go:63-66 *)
Definition ReadApproachLandingOperationalCapabilities (data : list Z) : res ApproachLandingOperationalCapabilities :=
  let* data2 := idx data 2 in
  let bits := (Z.shiftr (Z.land data2 0xf0) 4) in
  Ok bits.

(* pkg/bds/bds65/fields/approach_landing_operational_capability_status.go:46-60 *)
Definition ApproachLandingOperationalCapabilityStatus_ToString (status : ApproachLandingOperationalCapabilityStatus) : string :=
  if (status =? ALOCSReserved0) || (status =? ALOCSReserved1) || (status =? ALOCSReserved2) || (status =? ALOCSReserved3) || (status =? ALOCSReserved4) || (status =? ALOCSReserved5) || (status =? ALOCSReserved6) || (status =? ALOCSReserved7) || (status =? ALOCSReserved8) || (status =? ALOCSReserved9) || (status =? ALOCSReserved10) || (status =? ALOCSReserved11) || (status =? ALOCSReserved12) || (status =? ALOCSReserved13) || (status =? ALOCSReserved14) || (status =? ALOCSReserved15) then
    (dec status ++ " - reserved"%string)%string
  else 
    (dec status ++ " - Unknown code"%string)%string.

(* pkg/bds/bds65/fields/approach_landing_operational_capability_status.go:63-66 *)
Definition ReadApproachLandingOperationalCapabilityStatus (data : list Z) : res ApproachLandingOperationalCapabilityStatus :=
  let* data4 := idx data 4 in
  let bits := (Z.shiftr (Z.land data4 0xf0) 4) in
  Ok bits.

(* pkg/bds/bds65/fields/b2_low.go:18-28 *)
Definition B2Low_ToString (status : B2Low) : string :=
  if (status =? B2LGreaterThan70W) then
    "0 - Greater than or equal to 70 Watts transmit power"%string
  else if (status =? B2LLessThan70W) then
    "1 - Less than 70 Watts transmit power"%string
  else 
    (dec status ++ " - Unknown code"%string)%string.

(* pkg/bds/bds65/fields/b2_low.go:31-34 *)
Definition ReadB2Low (data : list Z) : res B2Low :=
  let* data1 := idx data 1 in
  let bits := (Z.shiftr (Z.land data1 2) 1) in
  Ok bits.

(* pkg/bds/bds65/fields/cockpit_display_traffic_information_status.go:18-28 *)
Definition CockpitDisplayOfTrafficInformationStatus_ToString (status : CockpitDisplayOfTrafficInformationStatus) : string :=
  if (status =? CDTINotOperational) then
    "0 - Traffic display not operational"%string
  else if (status =? CDTIOperational) then
    "1 - Traffic display operational"%string
  else 
    (dec status ++ " - Unknown code"%string)%string.

(* pkg/bds/bds65/fields/cockpit_display_traffic_information_status.go:31-34 *)
Definition ReadCockpitDisplayOfTrafficInformationStatus (data : list Z) : res CockpitDisplayOfTrafficInformationStatus :=
  let* data1 := idx data 1 in
  let bits := (Z.shiftr (Z.land data1 0x10) 4) in
  Ok bits.

(* pkg/bds/bds65/fields/en_route_operational_capabilities.go:46-60 *)
Definition EnRouteOperationalCapabilities_ToString (capabilities : EnRouteOperationalCapabilities) : string :=
  if (capabilities =? EROCReserved0) || (capabilities =? EROCReserved1) || (capabilities =? EROCReserved2) || (capabilities =? EROCReserved3) || (capabilities =? EROCReserved4) || (capabilities =? EROCReserved5) || (capabilities =? EROCReserved6) || (capabilities =? EROCReserved7) || (capabilities =? EROCReserved8) || (capabilities =? EROCReserved9) || (capabilities =? EROCReserved10) || (capabilities =? EROCReserved11) || (capabilities =? EROCReserved12) || (capabilities =? EROCReserved13) || (capabilities =? EROCReserved14) || (capabilities =? EROCReserved15) then
    (dec capabilities ++ " - reserved"%string)%string
  else 
    (dec capabilities ++ " - Unknown code"%string)%string.

(* pkg/bds/bds65/fields/en_route_operational_capabilities.go:63-66 *)
Definition ReadEnRouteOperationalCapabilities (data : list Z) : res EnRouteOperationalCapabilities :=
  let* data1 := idx data 1 in
  let bits := (Z.shiftr (Z.land data1 0xf0) 4) in
  Ok bits.

(* pkg/bds/bds65/fields/en_route_operational_capability_status.go:46-60 *)
Definition EnRouteOperationalCapabilityStatus_ToString (status : EnRouteOperationalCapabilityStatus) : string :=
  if (status =? EROCSReserved0) || (status =? EROCSReserved1) || (status =? EROCSReserved2) || (status =? EROCSReserved3) || (status =? EROCSReserved4) || (status =? EROCSReserved5) || (status =? EROCSReserved6) || (status =? EROCSReserved7) || (status =? EROCSReserved8) || (status =? EROCSReserved9) || (status =? EROCSReserved10) || (status =? EROCSReserved11) || (status =? EROCSReserved12) || (status =? EROCSReserved13) || (status =? EROCSReserved14) || (status =? EROCSReserved15) then
    (dec status ++ " - reserved"%string)%string
  else 
    (dec status ++ " - Unknown code"%string)%string.

(* pkg/bds/bds65/fields/en_route_operational_capability_status.go:63-66 *)
Definition ReadEnRouteOperationalCapabilityStatus (data : list Z) : res EnRouteOperationalCapabilityStatus :=
  let* data3 := idx data 3 in
  let bits := (Z.shiftr (Z.land data3 0xf0) 4) in
  Ok bits.

(* pkg/bds/bds65/fields/extended_squitter_in.go:18-28 *)
Definition ExtendedSquitterIn_ToString (status : ExtendedSquitterIn) : string :=
  if (status =? ESINoCapability) then
    "0 - Aircraft has NO 1090ES Receive capability"%string
  else if (status =? ESICapable) then
    "1 - Aircraft has 1090ES Receive capability"%string
  else 
    (dec status ++ " - Unknown code"%string)%string.

(* pkg/bds/bds65/fields/extended_squitter_in.go:31-34 *)
Definition ReadExtendedSquitterIn (data : list Z) : res ExtendedSquitterIn :=
  let* data1 := idx data 1 in
  let bits := (Z.shiftr (Z.land data1 0x10) 4) in
  Ok bits.

(* pkg/bds/bds65/fields/geometric_vertical_accuracy.go:22-36 *)
Definition GeometricVerticalAccuracy_ToString (baro : GeometricVerticalAccuracy) : string :=
  if (baro =? GVAUnknownOrGreaterThan150m) then
    "0 - Unknown or GVA >= 150 meters"%string
  else if (baro =? GVALowerThan150m) then
    "0 - GVA <= 150 meters"%string
  else if (baro =? GVALowerThan45m) then
    "0 - GVA <= 45 meters"%string
  else if (baro =? GVAReserved3) then
    "0 - reserved"%string
  else 
    (dec baro ++ " - Unknown code"%string)%string.

(* pkg/bds/bds65/fields/geometric_vertical_accuracy.go:39-42 *)
Definition ReadGeometricVerticalAccuracy (data : list Z) : res GeometricVerticalAccuracy :=
  let* data6 := idx data 6 in
  let bits := (Z.shiftr (Z.land data6 0xc0) 6) in
  Ok bits.

(* pkg/bds/bds65/fields/gps_antenna_lateral.go:30-52 *)
Definition GPSAntennaLateral_ToString (data : GPSAntennaLateral) : string :=
  if (data =? GLATNoData) then
    "0 - no data"%string
  else if (data =? GLATLeft2Meters) then
    "1 - direction left, 2 meters"%string
  else if (data =? GLATLeft4Meters) then
    "2 - direction left, 4 meters"%string
  else if (data =? GLATLeft6Meters) then
    "3 - direction left, 6 meters"%string
  else if (data =? GLATRight0Meter) then
    "4 - direction right, 0 meter"%string
  else if (data =? GLATRight02Meters) then
    "5 - direction right, 2 meters"%string
  else if (data =? GLATRight4Meters) then
    "6 - direction right, 4 meters"%string
  else if (data =? GLATRight6Meters) then
    "7 - direction right, 6 meters"%string
  else 
    (dec data ++ " - Unknown code"%string)%string.

(* pkg/bds/bds65/fields/gps_antenna_lateral.go:55-58 *)
Definition ReadGPSAntennaLateral (data : list Z) : res GPSAntennaLateral :=
  let* data4 := idx data 4 in
  let bits := (Z.shiftr (Z.land data4 0xe0) 5) in
  Ok bits.

(* pkg/bds/bds65/fields/gps_antenna_longitudinal.go:85-103 *)
Definition GPSAntennaLongitudinal_ToString (data : GPSAntennaLongitudinal) : string :=
  if (data =? GLONNoData) then
    "0 - no data"%string
  else if (data =? GLONCompensatedBySensor) then
    "1 - Antenna Offset is compensated by the Sensor"%string
  else if (data =? GLON2Meters) || (data =? GLON4Meters) || (data =? GLON6Meters) || (data =? GLON8Meters) || (data =? GLON10Meters) || (data =? GLON12Meters) || (data =? GLON14Meters) || (data =? GLON16Meters) || (data =? GLON18Meters) || (data =? GLON20Meters) || (data =? GLON22Meters) || (data =? GLON24Meters) || (data =? GLON26Meters) || (data =? GLON28Meters) || (data =? GLON30Meters) || (data =? GLON32Meters) || (data =? GLON34Meters) || (data =? GLON36Meters) || (data =? GLON38Meters) || (data =? GLON40Meters) || (data =? GLON42Meters) || (data =? GLON44Meters) || (data =? GLON46Meters) || (data =? GLON48Meters) || (data =? GLON50Meters) || (data =? GLON52Meters) || (data =? GLON54Meters) || (data =? GLON56Meters) || (data =? GLON58Meters) || (data =? GLON60Meters) then
    (dec data ++ " - "%string ++ dec (u8 ((u8 (data * 2)) - 2)))%string
  else 
    (dec data ++ " - Unknown code"%string)%string.

(* pkg/bds/bds65/fields/gps_antenna_longitudinal.go:106-109 *)
Definition ReadGPSAntennaLongitudinal (data : list Z) : res GPSAntennaLongitudinal :=
  let* data4 := idx data 4 in
  let bits := (Z.land data4 0x1f) in
  Ok bits.

(* pkg/bds/bds65/fields/horizontal_reference_direction.go:18-28 *)
Definition HorizontalReferenceDirection_ToString (direction : HorizontalReferenceDirection) : string :=
  if (direction =? HRDTrueNorth) then
    "0 - true north"%string
  else if (direction =? HRDMagneticNorth) then
    "1 - magnetic north"%string
  else 
    (dec direction ++ " - Unknown code"%string)%string.

(* pkg/bds/bds65/fields/horizontal_reference_direction.go:31-34 *)
Definition ReadHorizontalReferenceDirection (data : list Z) : res HorizontalReferenceDirection :=
  let* data6 := idx data 6 in
  let bits := (Z.shiftr (Z.land data6 4) 2) in
  Ok bits.

(* pkg/bds/bds65/fields/ident_switch_active.go:18-28 *)
Definition IdentSwitchActive_ToString (status : IdentSwitchActive) : string :=
  if (status =? ISANotActive) then
    "0 - Ident switch not active"%string
  else if (status =? ISAActive) then
    "1 - Ident switch active - retained for 18 +/-1 seconds"%string
  else 
    (dec status ++ " - Unknown code"%string)%string.

(* pkg/bds/bds65/fields/ident_switch_active.go:31-34 *)
Definition ReadIdentSwitchActive (data : list Z) : res IdentSwitchActive :=
  let* data3 := idx data 3 in
  let bits := (Z.shiftr (Z.land data3 0x10) 4) in
  Ok bits.

(* pkg/bds/bds65/fields/length_width.go:46-84 *)
Definition LengthWidth_ToString (status : LengthWidth) : string :=
  if (status =? LWLength15Width11Point5) then
    "0 - Length lower than 15 meters and Width lower than 11.5 meters"%string
  else if (status =? LWLength15Width23) then
    "1 - Length lower than 15 meters and Width lower than 23 meters"%string
  else if (status =? LWLength25Width28Point5) then
    "2 - Length lower than 25 meters and Width lower than 28.5 meters"%string
  else if (status =? LWLength25Width34) then
    "3 - Length lower than 25 meters and Width lower than 34 meters"%string
  else if (status =? LWLength35Width33) then
    "4 - Length lower than 35 meters and Width lower than 33 meters"%string
  else if (status =? LWLength35Width38) then
    "5 - Length lower than 35 meters and Width lower than 38 meters"%string
  else if (status =? LWLength45Width39Point5) then
    "6 - Length lower than 45 meters and Width lower than 39.5 meters"%string
  else if (status =? LWLength45Width45) then
    "7 - Length lower than 45 meters and Width lower than 45 meters"%string
  else if (status =? LWLength55Width45) then
    "8 - Length lower than 55 meters and Width lower than 45 meters"%string
  else if (status =? LWLength55Width52) then
    "9 - Length lower than 55 meters and Width lower than 52 meters"%string
  else if (status =? LWLength65Width59Point5) then
    "10 - Length lower than 65 meters and Width lower than 59 meters"%string
  else if (status =? LWLength65Width67) then
    "11 - Length lower than 65 meters and Width lower than 67 meters"%string
  else if (status =? LWLength75Width72Point5) then
    "12 - Length lower than 75 meters and Width lower than 72.5 meters"%string
  else if (status =? LWLength75Width80) then
    "13 - Length lower than 75 meters and Width lower than 80 meters"%string
  else if (status =? LWLength85Width80) then
    "14 - Length lower than 85 meters and Width lower than 80 meters"%string
  else if (status =? LWLength85Width90) then
    "15 - Length lower than 85 meters and Width lower than 90 meters"%string
  else 
    (dec status ++ " - Unknown code"%string)%string.

(* pkg/bds/bds65/fields/length_width.go:87-90 *)
Definition ReadAircraftLengthAndWidth (data : list Z) : res LengthWidth :=
  let* data2 := idx data 2 in
  let bits := (Z.land data2 0xf) in
  Ok bits.

(* pkg/bds/bds65/fields/navigation_accuracy_category_velocity.go:11-13 *)
Definition NavigationAccuracyCategoryVelocity_ToString (category : NavigationAccuracyCategoryVelocity) : string :=
  (dec category).

(* pkg/bds/bds65/fields/navigation_accuracy_category_velocity.go:16-19 *)
Definition ReadNavigationAccuracyCategoryVelocity (data : list Z) : res NavigationAccuracyCategoryVelocity :=
  let* data2 := idx data 2 in
  let bits := (Z.shiftr (Z.land data2 0xe0) 5) in
  Ok bits.

(* pkg/bds/bds65/fields/navigational_accuracy_category_position_v1.go:46-85 *)
Definition NavigationalAccuracyCategoryPositionV1_ToString (category : NavigationalAccuracyCategoryPositionV1) : string :=
  if (category =? NACV1PEPUGreaterThan18Point52Km) then
    "0 - EPU >= 18.52 km (10 NM) - Unknown accuracy"%string
  else if (category =? NACV1PEPULowerThan18Point52Km) then
    "1 - EPU < 18.52 km (10 NM) - RNP-10 accuracy"%string
  else if (category =? NACV1PEPULowerThan7Point408Km) then
    "2 - EPU < 7.408 km (4 NM) - RNP-4 accuracy"%string
  else if (category =? NACV1PEPULowerThan3Point704Km) then
    "3 - EPU < 3.704 km (2 NM) - RNP-2 accuracy"%string
  else if (category =? NACV1PEPUGreaterThan1852M) then
    "4 - EPU < 1 852 m (1 NM) - RNP-1 accuracy"%string
  else if (category =? NACV1PEPULowerThan926M) then
    "5 - EPU < 926 m (0.5 NM) - RNP-0.5 accuracy"%string
  else if (category =? NACV1PEPUGreaterThan555Point6M) then
    "6 - EPU < 555.6 m ( 0.3 NM) - RNP-0.3 accuracy"%string
  else if (category =? NACV1PEPULowerThan185Point2M) then
    "7 - EPU < 185.2 m (0.1 NM) - RNP-0.1 accuracy"%string
  else if (category =? NACV1PEPUGreaterThan92Point6M) then
    "8 - EPU < 92.6 m (0.05 NM) - e.g. GPS (with SA)"%string
  else if (category =? NACV1PEPULowerThan30MAndVEPULowerThan45M) then
    "9 - EPU < 30 m and VEPU < 45 m - e.g. GPS (SA off)"%string
  else if (category =? NACV1PEPULowerThan10MAndVEPULowerThan15M) then
    "10 - EPU < 10 m and VEPU < 15 m - e.g. WAAS"%string
  else if (category =? NACV1PEPULowerThan3MAndVEPULowerThan4M) then
    "11 - EPU < 3 m and VEPU < 4 m - e.g. LAAS"%string
  else if (category =? NACV1PReserved12) then
    "12 - Reserved"%string
  else if (category =? NACV1PReserved13) then
    "13 - Reserved"%string
  else if (category =? NACV1PReserved14) then
    "14 - Reserved"%string
  else if (category =? NACV1PReserved15) then
    "15 - Reserved"%string
  else 
    (dec category ++ " - Unknown code"%string)%string.

(* pkg/bds/bds65/fields/navigational_accuracy_category_position_v1.go:88-91 *)
Definition ReadNavigationalAccuracyCategoryPositionV1 (data : list Z) : res NavigationalAccuracyCategoryPositionV1 :=
  let* data5 := idx data 5 in
  let bits := (Z.land data5 0xf) in
  Ok bits.

(* pkg/bds/bds65/fields/navigational_accuracy_category_position_v2.go:46-85 *)
Definition NavigationalAccuracyCategoryPositionV2_ToString (category : NavigationalAccuracyCategoryPositionV2) : string :=
  if (category =? NACV2PEPUGreaterThan18Point52Km) then
    "0 - EPU >= 18.52 km (10 NM) - Unknown accuracy"%string
  else if (category =? NACV2PEPULowerThan18Point52Km) then
    "1 - EPU < 18.52 km (10 NM) - RNP-10 accuracy"%string
  else if (category =? NACV2PEPULowerThan7Point408Km) then
    "2 - EPU < 7.408 km (4 NM) - RNP-4 accuracy"%string
  else if (category =? NACV2PEPULowerThan3Point704Km) then
    "3 - EPU < 3.704 km (2 NM) - RNP-2 accuracy"%string
  else if (category =? NACV2PEPUGreaterThan1852M) then
    "4 - EPU < 1 852 m (1 NM) - RNP-1 accuracy"%string
  else if (category =? NACV2PEPULowerThan926M) then
    "5 - EPU < 926 m (0.5 NM) - RNP-0.5 accuracy"%string
  else if (category =? NACV2PEPUGreaterThan555Point6M) then
    "6 - EPU < 555.6 m ( 0.3 NM) - RNP-0.3 accuracy"%string
  else if (category =? NACV2PEPULowerThan185Point2M) then
    "7 - EPU < 185.2 m (0.1 NM) - RNP-0.1 accuracy"%string
  else if (category =? NACV2PEPUGreaterThan92Point6M) then
    "8 - EPU < 92.6 m (0.05 NM) - e.g. GPS (with SA)"%string
  else if (category =? NACV2PEPULowerThan30M) then
    "9 - EPU < 30 m - e.g. GPS (SA off)"%string
  else if (category =? NACV2PEPULowerThan10M) then
    "10 - EPU < 10 m - e.g. WAAS"%string
  else if (category =? NACV2PEPULowerThan3M) then
    "11 - EPU < 3 m - e.g. LAAS"%string
  else if (category =? NACV2PReserved12) then
    "12 - Reserved"%string
  else if (category =? NACV2PReserved13) then
    "13 - Reserved"%string
  else if (category =? NACV2PReserved14) then
    "14 - Reserved"%string
  else if (category =? NACV2PReserved15) then
    "15 - Reserved"%string
  else 
    (dec category ++ " - Unknown code"%string)%string.

(* pkg/bds/bds65/fields/navigational_accuracy_category_position_v2.go:88-91 *)
Definition ReadNavigationalAccuracyCategoryPositionV2 (data : list Z) : res NavigationalAccuracyCategoryPositionV2 :=
  let* data5 := idx data 5 in
  let bits := (Z.land data5 0xf) in
  Ok bits.

(* pkg/bds/bds65/fields/nic_baro.go:22-32 *)
Definition NICBaro_ToString (baro : NICBaro) : string :=
  if (baro =? NICBGilhamNotCrossChecked) then
    "0 - barometric altitude based on a Gilham input that has not been cross-checked"%string
  else if (baro =? NICBGilhamCrossCheckedOrNonGilham) then
    "1 - barometric altitude based on a Gilham input that has been cross-checked or on a non Gilham input"%string
  else 
    (dec baro ++ " - Unknown code"%string)%string.

(* pkg/bds/bds65/fields/nic_baro.go:35-38 *)
Definition ReadNICBaro (data : list Z) : res NICBaro :=
  let* data6 := idx data 6 in
  let bits := (Z.shiftr (Z.land data6 8) 3) in
  Ok bits.

(* pkg/bds/bds65/fields/nic_supplement_a.go:18-28 *)
Definition NICSupplementA_ToString (supplement : NICSupplementA) : string :=
  if (supplement =? NICAZero) then
    "0"%string
  else if (supplement =? NICAOne) then
    "1"%string
  else 
    (dec supplement ++ " - Unknown code"%string)%string.

(* pkg/bds/bds65/fields/nic_supplement_a.go:31-34 *)
Definition ReadNICSupplementA (data : list Z) : res NICSupplementA :=
  let* data5 := idx data 5 in
  let bits := (Z.shiftr (Z.land data5 0x10) 4) in
  Ok bits.

(* pkg/bds/bds65/fields/nic_supplement_c.go:18-28 *)
Definition NICSupplementC_ToString (supplement : NICSupplementC) : string :=
  if (supplement =? NICCSZero) then
    "0"%string
  else if (supplement =? NICCSOne) then
    "1"%string
  else 
    (dec supplement ++ " - Unknown code"%string)%string.

(* pkg/bds/bds65/fields/nic_supplement_c.go:31-34 *)
Definition ReadNICSupplementC (data : list Z) : res NICSupplementC :=
  let* data2 := idx data 2 in
  let bits := (Z.shiftr (Z.land data2 0x10) 4) in
  Ok bits.

(* pkg/bds/bds65/fields/not_acas_status.go:18-28 *)
Definition NotACASStatus_ToString (status : NotACASStatus) : string :=
  if (status =? NotACASStatusOperationalUnknown) then
    "0 - ACAS operational or unknown"%string
  else if (status =? NotACASStatusNotInstalledNotOperational) then
    "1 - ACAS not installed or not operational"%string
  else 
    (dec status ++ " - Unknown code"%string)%string.

(* pkg/bds/bds65/fields/not_acas_status.go:31-34 *)
Definition ReadNotACASStatus (data : list Z) : res NotACASStatus :=
  let* data1 := idx data 1 in
  let bits := (Z.shiftr (Z.land data1 0x20) 5) in
  Ok bits.

(* pkg/bds/bds65/fields/position_offset_applied.go:18-28 *)
Definition PositionOffsetApplied_ToString (status : PositionOffsetApplied) : string :=
  if (status =? POANotADSB) then
    "0 - Position transmitted is not the ADS-B position reference point"%string
  else if (status =? POAIsADSB) then
    "1 - Position transmitted is the ADS-B position reference point"%string
  else 
    (dec status ++ " - Unknown code"%string)%string.

(* pkg/bds/bds65/fields/position_offset_applied.go:31-34 *)
Definition ReadPositionOffsetApplied (data : list Z) : res PositionOffsetApplied :=
  let* data1 := idx data 1 in
  let bits := (Z.shiftr (Z.land data1 0x20) 5) in
  Ok bits.

(* pkg/bds/bds65/fields/receiving_atc_services.go:18-28 *)
Definition ReceivingATCServices_ToString (status : ReceivingATCServices) : string :=
  if (status =? RASNotReceivingATC) then
    "0 - Aircraft not receiving ATC services"%string
  else if (status =? RASReceivingATC) then
    "1 - Aircraft receiving ATC services"%string
  else 
    (dec status ++ " - Unknown code"%string)%string.

(* pkg/bds/bds65/fields/receiving_atc_services.go:31-34 *)
Definition ReadReceivingATCServices (data : list Z) : res ReceivingATCServices :=
  let* data3 := idx data 3 in
  let bits := (Z.shiftr (Z.land data3 8) 3) in
  Ok bits.

(* pkg/bds/bds65/fields/single_antenna_flag.go:18-28 *)
Definition SingleAntennaFlag_ToString (status : SingleAntennaFlag) : string :=
  if (status =? SAFTwoAntennas) then
    "0 - Systems with two functioning antennas"%string
  else if (status =? SAFOneAntenna) then
    "1 - Systems that use only one antenna"%string
  else 
    (dec status ++ " - Unknown code"%string)%string.

(* pkg/bds/bds65/fields/single_antenna_flag.go:31-34 *)
Definition ReadSingleAntennaFlag (data : list Z) : res SingleAntennaFlag :=
  let* data3 := idx data 3 in
  let bits := (Z.shiftr (Z.land data3 4) 2) in
  Ok bits.

(* pkg/bds/bds65/fields/source_integrity_level.go:22-36 *)
Definition SourceIntegrityLevel_ToString (level : SourceIntegrityLevel) : string :=
  if (level =? SILLevel0) then
    "0 - Unknown or SIL > 1 * 10^-3 per flight hour or per sample"%string
  else if (level =? SILLevel1) then
    "1 - SIL <= 1 * 10^-3 per flight hour or per sample"%string
  else if (level =? SILLevel2) then
    "2 - SIL <= 1 * 10^-5 per flight hour or per sample"%string
  else if (level =? SILLevel3) then
    "3 - SIL <= 1 * 10^-7 per flight hour or per sample"%string
  else 
    (dec level ++ " - Unknown code"%string)%string.

(* pkg/bds/bds65/fields/source_integrity_level.go:39-42 *)
Definition ReadSourceIntegrityLevel (data : list Z) : res SourceIntegrityLevel :=
  let* data6 := idx data 6 in
  let bits := (Z.shiftr (Z.land data6 0x30) 4) in
  Ok bits.

(* pkg/bds/bds65/fields/source_integrity_level_supplement.go:18-28 *)
Definition SourceIntegrityLevelSupplement_ToString (status : SourceIntegrityLevelSupplement) : string :=
  if (status =? SILSByHour) then
    "0 - Probability of exceeding NIC radius of containment is based on ""per hour"""%string
  else if (status =? SILSBySample) then
    "1 - Probability of exceeding NIC radius of containment is based on ""per sample"""%string
  else 
    (dec status ++ " - Unknown code"%string)%string.

(* pkg/bds/bds65/fields/source_integrity_level_supplement.go:31-34 *)
Definition ReadSourceIntegrityLevelSupplement (data : list Z) : res SourceIntegrityLevelSupplement :=
  let* data6 := idx data 6 in
  let bits := (Z.shiftr (Z.land data6 2) 1) in
  Ok bits.

(* pkg/bds/bds65/fields/subtype.go:20-30 *)
Definition Subtype_ToString (subtype : Subtype) : string :=
  if (subtype =? SubtypeAirborne) then
    "0 - Airborne Status Message"%string
  else if (subtype =? SubtypeSurface) then
    "1 - Surface Status Message"%string
  else 
    (dec subtype ++ " - Unknown code"%string)%string.

(* pkg/bds/bds65/fields/subtype.go:33-36 *)
Definition ReadSubtype (data : list Z) : res Subtype :=
  let* data0 := idx data 0 in
  let bits := (Z.land data0 7) in
  Ok bits.

(* pkg/bds/bds65/fields/surface_capability_class_v1.go:15-23 *)
Definition SurfaceCapabilityClassV1_ToString (capability : SurfaceCapabilityClassV1) : string :=
  ("Position Offset Applied:                       "%string ++ (PositionOffsetApplied_ToString capability.(SurfaceCapabilityClassV1_PositionOffsetApplied)) ++
      (nl ++ "Cockpit Display Of Traffic Information Status: ")%string ++ (CockpitDisplayOfTrafficInformationStatus_ToString capability.(SurfaceCapabilityClassV1_CockpitDisplayOfTrafficInformationStatus)) ++
      (nl ++ "B2Low:                                         ")%string ++ (B2Low_ToString capability.(SurfaceCapabilityClassV1_B2Low)))%string.

(* pkg/bds/bds65/fields/surface_capability_class_v1.go:26-32 *)
Definition ReadSurfaceCapabilityClassV1 (data : list Z) : res SurfaceCapabilityClassV1 :=
  let* r := ReadPositionOffsetApplied data in
  let* r_1 := ReadCockpitDisplayOfTrafficInformationStatus data in
  let* r_2 := ReadB2Low data in
  Ok ({| SurfaceCapabilityClassV1_PositionOffsetApplied := r;
      SurfaceCapabilityClassV1_CockpitDisplayOfTrafficInformationStatus := r_1;
      SurfaceCapabilityClassV1_B2Low := r_2 |}).

(* pkg/bds/bds65/fields/surface_operational_capabilities.go:46-60 *)
Definition SurfaceOperationalCapabilities_ToString (capabilities : SurfaceOperationalCapabilities) : string :=
  if (capabilities =? SOCReserved0) || (capabilities =? SOCReserved1) || (capabilities =? SOCReserved2) || (capabilities =? SOCReserved3) || (capabilities =? SOCReserved4) || (capabilities =? SOCReserved5) || (capabilities =? SOCReserved6) || (capabilities =? SOCReserved7) || (capabilities =? SOCReserved8) || (capabilities =? SOCReserved9) || (capabilities =? SOCReserved10) || (capabilities =? SOCReserved11) || (capabilities =? SOCReserved12) || (capabilities =? SOCReserved13) || (capabilities =? SOCReserved14) || (capabilities =? SOCReserved15) then
    (dec capabilities ++ " - reserved"%string)%string
  else 
    (dec capabilities ++ " - Unknown code"%string)%string.

(* pkg/bds/bds65/fields/surface_operational_capabilities.go:63-66 *)
Definition ReadSurfaceOperationalCapabilities (data : list Z) : res SurfaceOperationalCapabilities :=
  let* data2 := idx data 2 in
  let bits := (Z.land data2 0xf) in
  Ok bits.

(* pkg/bds/bds65/fields/surface_operational_capability_status.go:46-60 *)
Definition SurfaceOperationalCapabilityStatus_ToString (status : SurfaceOperationalCapabilityStatus) : string :=
  if (status =? SOCSReserved0) || (status =? SOCSReserved1) || (status =? SOCSReserved2) || (status =? SOCSReserved3) || (status =? SOCSReserved4) || (status =? SOCSReserved5) || (status =? SOCSReserved6) || (status =? SOCSReserved7) || (status =? SOCSReserved8) || (status =? SOCSReserved9) || (status =? SOCSReserved10) || (status =? SOCSReserved11) || (status =? SOCSReserved12) || (status =? SOCSReserved13) || (status =? SOCSReserved14) || (status =? SOCSReserved15) then
    (dec status ++ " - reserved"%string)%string
  else 
    (dec status ++ " - Unknown code"%string)%string.

(* pkg/bds/bds65/fields/surface_operational_capability_status.go:63-66 *)
Definition ReadSurfaceOperationalCapabilityStatus (data : list Z) : res SurfaceOperationalCapabilityStatus :=
  let* data4 := idx data 4 in
  let bits := (Z.land data4 0xf) in
  Ok bits.

(* pkg/bds/bds65/fields/surveillance_integrity_level.go:33-55 *)
Definition SurveillanceIntegrityLevel_ToString (level : SurveillanceIntegrityLevel) : string :=
  if (level =? SUILLevel0) then
    (silLabelHorizontal ++ "Unknown"%string ++ nl%string ++ silLabelVertical ++ "Unknown"%string)%string
  else if (level =? SUILLevel1) then
    (silLabelHorizontal ++ "<= 1 * 10^-3 per flight hour or per sample"%string ++ nl%string ++ silLabelVertical ++ "<= 1 * 10^-3 per flight hour or per sample"%string)%string
  else if (level =? SUILLevel2) then
    (silLabelHorizontal ++ "<= 1 * 10^-5 per flight hour or per sample"%string ++ nl%string ++ silLabelVertical ++ "<= 1 * 10^-5 per flight hour or per sample"%string)%string
  else if (level =? SUILLevel3) then
    (silLabelHorizontal ++ "<= 1 * 10^-7 per flight hour or per sample"%string ++ nl%string ++ silLabelVertical ++ "<= 2 * 10^-7 per 150 seconds or per sample"%string)%string
  else 
    (dec level ++ " - Unknown code"%string)%string.

(* pkg/bds/bds65/fields/surveillance_integrity_level.go:58-61 *)
Definition ReadSurveillanceIntegrityLevel (data : list Z) : res SurveillanceIntegrityLevel :=
  let* data6 := idx data 6 in
  let bits := (Z.shiftr (Z.land data6 0x30) 4) in
  Ok bits.

(* pkg/bds/bds65/fields/system_design_assurance.go:22-36 *)
Definition SystemDesignAssurance_ToString (status : SystemDesignAssurance) : string :=
  if (status =? SDANotApplicable) then
    "0 - Not Applicable"%string
  else if (status =? SDALevelD) then
    "1 - Level D"%string
  else if (status =? SDALevelC) then
    "2 - Level C"%string
  else if (status =? SDALevelB) then
    "3 - Level B"%string
  else 
    (dec status ++ " - Unknown code"%string)%string.

(* pkg/bds/bds65/fields/system_design_assurance.go:39-42 *)
Definition ReadSystemDesignAssurance (data : list Z) : res SystemDesignAssurance :=
  let* data3 := idx data 3 in
  let bits := (Z.land data3 3) in
  Ok bits.

(* pkg/bds/bds65/fields/target_change_report_capability.go:22-36 *)
Definition TargetChangeReportCapability_ToString (status : TargetChangeReportCapability) : string :=
  if (status =? TCRCNoCapability) then
    "0 - No capability for sending messages to support Trajectory Change Reports"%string
  else if (status =? TCRCCapableTC0Only) then
    "1 - Capability of sending messages to support TC+0 Report only"%string
  else if (status =? TCRCCapableMultipleTC) then
    "2 - Capability of sending information for multiple TC Reports"%string
  else if (status =? TCRCCapableReserved) then
    "3 - Reserved"%string
  else 
    (dec status ++ " - Unknown code"%string)%string.

(* pkg/bds/bds65/fields/target_change_report_capability.go:39-42 *)
Definition ReadTargetChangeReportCapability (data : list Z) : res TargetChangeReportCapability :=
  let* data2 := idx data 2 in
  let bits := (Z.shiftr (Z.land data2 0xc0) 6) in
  Ok bits.

(* pkg/bds/bds65/fields/target_state_report_capability.go:18-28 *)
Definition TargetStateReportCapability_ToString (status : TargetStateReportCapability) : string :=
  if (status =? TSRCNoCapability) then
    "0 - No capability for sending messages to support Target State Reports"%string
  else if (status =? TSRCCapable) then
    "1 - Capability of sending messages to support Target State Reports"%string
  else 
    (dec status ++ " - Unknown code"%string)%string.

(* pkg/bds/bds65/fields/target_state_report_capability.go:31-34 *)
Definition ReadTargetStateReportCapability (data : list Z) : res TargetStateReportCapability :=
  let* data1 := idx data 1 in
  let bits := (Z.land data1 1) in
  Ok bits.

(* pkg/bds/bds65/fields/terminal_area_operational_capabilities.go:46-60 *)
Definition TerminalAreaOperationalCapabilities_ToString (capabilities : TerminalAreaOperationalCapabilities) : string :=
  if (capabilities =? TAOCReserved0) || (capabilities =? TAOCReserved1) || (capabilities =? TAOCReserved2) || (capabilities =? TAOCReserved3) || (capabilities =? TAOCReserved4) || (capabilities =? TAOCReserved5) || (capabilities =? TAOCReserved6) || (capabilities =? TAOCReserved7) || (capabilities =? TAOCReserved8) || (capabilities =? TAOCReserved9) || (capabilities =? TAOCReserved10) || (capabilities =? TAOCReserved11) || (capabilities =? TAOCReserved12) || (capabilities =? TAOCReserved13) || (capabilities =? TAOCReserved14) || (capabilities =? TAOCReserved15) then
    (dec capabilities ++ " - reserved"%string)%string
  else 
    (dec capabilities ++ " - Unknown code"%string)%string.

(* pkg/bds/bds65/fields/terminal_area_operational_capabilities.go:63-66 *)
Definition ReadTerminalAreaOperationalCapabilities (data : list Z) : res TerminalAreaOperationalCapabilities :=
  let* data1 := idx data 1 in
  let bits := (Z.land data1 0xf) in
  Ok bits.

(* pkg/bds/bds65/fields/terminal_area_operational_capability_status.go:46-60 *)
Definition TerminalAreaOperationalCapabilityStatus_ToString (status : TerminalAreaOperationalCapabilityStatus) : string :=
  if (status =? TAOCSReserved0) || (status =? TAOCSReserved1) || (status =? TAOCSReserved2) || (status =? TAOCSReserved3) || (status =? TAOCSReserved4) || (status =? TAOCSReserved5) || (status =? TAOCSReserved6) || (status =? TAOCSReserved7) || (status =? TAOCSReserved8) || (status =? TAOCSReserved9) || (status =? TAOCSReserved10) || (status =? TAOCSReserved11) || (status =? TAOCSReserved12) || (status =? TAOCSReserved13) || (status =? TAOCSReserved14) || (status =? TAOCSReserved15) then
    (dec status ++ " - reserved"%string)%string
  else 
    (dec status ++ " - Unknown code"%string)%string.

(* pkg/bds/bds65/fields/terminal_area_operational_capability_status.go:63-66 *)
Definition ReadTerminalAreaOperationalCapabilityStatus (data : list Z) : res TerminalAreaOperationalCapabilityStatus :=
  let* data3 := idx data 3 in
  let bits := (Z.land data3 0xf) in
  Ok bits.

(* pkg/bds/bds65/fields/track_angle_heading.go:18-28 *)
Definition TrackAngleHeading_ToString (headingAngle : TrackAngleHeading) : string :=
  if (headingAngle =? TAHTargetHeadingReported) then
    "0 - Target heading angle is being reported"%string
  else if (headingAngle =? TAHTrackAngleReported) then
    "1 - Track angle is being reported"%string
  else 
    (dec headingAngle ++ " - Unknown code"%string)%string.

(* pkg/bds/bds65/fields/track_angle_heading.go:31-34 *)
Definition ReadTrackAngleHeading (data : list Z) : res TrackAngleHeading :=
  let* data6 := idx data 6 in
  let bits := (Z.shiftr (Z.land data6 8) 3) in
  Ok bits.

(* pkg/bds/bds65/fields/universal_access_transceiver_capability.go:18-28 *)
Definition UniversalAccessTransceiverCapability_ToString (status : UniversalAccessTransceiverCapability) : string :=
  if (status =? UATNoCapability) then
    "0 - Aircraft has No UAT Receive capability"%string
  else if (status =? UATCapable) then
    "1 - Aircraft has UAT Receive capability"%string
  else 
    (dec status ++ " - Unknown code"%string)%string.

(* pkg/bds/bds65/fields/universal_access_transceiver_capability.go:31-34 *)
Definition ReadUniversalAccessTransceiverCapabilityAirborne (data : list Z) : res UniversalAccessTransceiverCapability :=
  let* data2 := idx data 2 in
  let bits := (Z.shiftr (Z.land data2 0x20) 5) in
  Ok bits.

(* pkg/bds/bds65/fields/universal_access_transceiver_capability.go:37-40 *)
Definition ReadUniversalAccessTransceiverCapabilitySurface (data : list Z) : res UniversalAccessTransceiverCapability :=
  let* data1 := idx data 1 in
  let bits := (Z.land data1 1) in
  Ok bits.

(* pkg/bds/bds65/fields/version_number.go:20-31 *)
Definition VersionNumber_ToString (versionNumber : VersionNumber) : string :=
  if (versionNumber =? ADSBVersion0) then
    "0 - ADSB V0: Conformant to Doc 9871, Appendix A"%string
  else if (versionNumber =? ADSBVersion1) then
    "1 - ADSB V1: Conformant to Doc 9871, Appendix B"%string
  else if (versionNumber =? ADSBVersion2) then
    "2 - ADSB V2: Conformant to Doc 9871, Appendix C"%string
  else 
    (dec versionNumber).

(* pkg/bds/bds65/fields/version_number.go:34-39 *)
Definition ReadVersionNumber (data : list Z) : res VersionNumber :=
  let* data5 := idx data 5 in
  let bits := (Z.shiftr (Z.land data5 0xe0) 5) in
  Ok bits.

(* pkg/bds/bds65/fields/airborne_capability_class_v1.go:17-29 *)
Definition AirborneCapabilityClassV1_ToString (capability : AirborneCapabilityClassV1) : string :=
  ("Not ACAS Status:                               "%string ++ (NotACASStatus_ToString capability.(AirborneCapabilityClassV1_NotACASStatus)) ++
      (nl ++ "Cockpit Display Of Traffic Information Status: ")%string ++ (CockpitDisplayOfTrafficInformationStatus_ToString capability.(AirborneCapabilityClassV1_CockpitDisplayOfTrafficInformationStatus)) ++
      (nl ++ "Air Referenced Velocity Report Capability:     ")%string ++ (AirReferencedVelocityReportCapability_ToString capability.(AirborneCapabilityClassV1_AirReferencedVelocityReportCapability)) ++
      (nl ++ "Target State Report Capability:                ")%string ++ (TargetStateReportCapability_ToString capability.(AirborneCapabilityClassV1_TargetStateReportCapability)) ++
      (nl ++ "Target Change Report Capability:               ")%string ++ (TargetChangeReportCapability_ToString capability.(AirborneCapabilityClassV1_TargetChangeReportCapability)))%string.

(* pkg/bds/bds65/fields/airborne_capability_class_v1.go:32-40 *)
Definition ReadAirborneCapabilityClassV1 (data : list Z) : res AirborneCapabilityClassV1 :=
  let* r := ReadNotACASStatus data in
  let* r_1 := ReadCockpitDisplayOfTrafficInformationStatus data in
  let* r_2 := ReadAirReferencedVelocityReportCapability data in
  let* r_3 := ReadTargetStateReportCapability data in
  let* r_4 := ReadTargetChangeReportCapability data in
  Ok ({| AirborneCapabilityClassV1_NotACASStatus := r;
      AirborneCapabilityClassV1_CockpitDisplayOfTrafficInformationStatus := r_1;
      AirborneCapabilityClassV1_AirReferencedVelocityReportCapability := r_2;
      AirborneCapabilityClassV1_TargetStateReportCapability := r_3;
      AirborneCapabilityClassV1_TargetChangeReportCapability := r_4 |}).

(* pkg/bds/bds65/fields/airborne_capability_class_v2.go:18-32 *)
Definition AirborneCapabilityClassV2_ToString (capability : AirborneCapabilityClassV2) : string :=
  ("ACAS Operational:                                "%string ++ (ACASOperational_ToString capability.(AirborneCapabilityClassV2_ACASOperational)) ++
      (nl ++ "1090ES IN (1090 MHz Extended Squitter):          ")%string ++ (ExtendedSquitterIn_ToString capability.(AirborneCapabilityClassV2_ExtendedSquitterIn)) ++
      (nl ++ "ARV (Air-Referenced Velocity Report Capability): ")%string ++ (AirReferencedVelocityReportCapability_ToString capability.(AirborneCapabilityClassV2_AirReferencedVelocityReportCapability)) ++
      (nl ++ "Target State Report Capability:                  ")%string ++ (TargetStateReportCapability_ToString capability.(AirborneCapabilityClassV2_TargetStateReportCapability)) ++
      (nl ++ "Target Change Report Capability:                 ")%string ++ (TargetChangeReportCapability_ToString capability.(AirborneCapabilityClassV2_TargetChangeReportCapability)) ++
      (nl ++ "UAT IN (Universal Access Transceiver):           ")%string ++ (UniversalAccessTransceiverCapability_ToString capability.(AirborneCapabilityClassV2_UniversalAccessTransceiverCapability)))%string.

(* pkg/bds/bds65/fields/airborne_capability_class_v2.go:35-44 *)
Definition ReadAirborneCapabilityClassV2 (data : list Z) : res AirborneCapabilityClassV2 :=
  let* r := ReadACASOperational data in
  let* r_1 := ReadExtendedSquitterIn data in
  let* r_2 := ReadAirReferencedVelocityReportCapability data in
  let* r_3 := ReadTargetStateReportCapability data in
  let* r_4 := ReadTargetChangeReportCapability data in
  let* r_5 := ReadUniversalAccessTransceiverCapabilityAirborne data in
  Ok ({| AirborneCapabilityClassV2_ACASOperational := r;
      AirborneCapabilityClassV2_ExtendedSquitterIn := r_1;
      AirborneCapabilityClassV2_AirReferencedVelocityReportCapability := r_2;
      AirborneCapabilityClassV2_TargetStateReportCapability := r_3;
      AirborneCapabilityClassV2_TargetChangeReportCapability := r_4;
      AirborneCapabilityClassV2_UniversalAccessTransceiverCapability := r_5 |}).

(* pkg/bds/bds65/fields/airborne_operational_mode.go:16-27 *)
Definition AirborneOperationalMode_ToString (mode : AirborneOperationalMode) : string :=
  ("ACAS Resolution Advisory Active: "%string ++ (ACASResolutionAdvisoryActiveV2_ToString mode.(AirborneOperationalMode_ACASResolutionAdvisoryActive)) ++
      (nl ++ "Ident Switch Active:             ")%string ++ (IdentSwitchActive_ToString mode.(AirborneOperationalMode_IdentSwitchActive)) ++
      (nl ++ "Single Antenna Flag:             ")%string ++ (SingleAntennaFlag_ToString mode.(AirborneOperationalMode_SingleAntennaFlag)) ++
      (nl ++ "System Design Assurance:         ")%string ++ (SystemDesignAssurance_ToString mode.(AirborneOperationalMode_SystemDesignAssurance)))%string.

(* pkg/bds/bds65/fields/airborne_operational_mode.go:30-37 *)
Definition ReadAirborneOperationalMode (data : list Z) : res AirborneOperationalMode :=
  let* r := ReadACASResolutionAdvisoryActiveV2 data in
  let* r_1 := ReadIdentSwitchActive data in
  let* r_2 := ReadSingleAntennaFlag data in
  let* r_3 := ReadSystemDesignAssurance data in
  Ok ({| AirborneOperationalMode_ACASResolutionAdvisoryActive := r;
      AirborneOperationalMode_IdentSwitchActive := r_1;
      AirborneOperationalMode_SingleAntennaFlag := r_2;
      AirborneOperationalMode_SystemDesignAssurance := r_3 |}).

(* pkg/bds/bds65/fields/gps_antenna.go:14-20 *)
Definition GPSAntenna_ToString (antenna : GPSAntenna) : string :=
  ("Lateral Axis GPS Antenna:      "%string ++ (GPSAntennaLateral_ToString antenna.(GPSAntenna_GPSAntennaLateral)) ++
      (nl ++ "Longitudinal Axis GPS Antenna: ")%string ++ (GPSAntennaLongitudinal_ToString antenna.(GPSAntenna_GPSAntennaLongitudinal)))%string.

(* pkg/bds/bds65/fields/gps_antenna.go:23-28 *)
Definition ReadGPSAntenna (data : list Z) : res GPSAntenna :=
  let* r := ReadGPSAntennaLateral data in
  let* r_1 := ReadGPSAntennaLongitudinal data in
  Ok ({| GPSAntenna_GPSAntennaLateral := r; GPSAntenna_GPSAntennaLongitudinal := r_1 |}).

(* pkg/bds/bds65/fields/operational_mode.go:15-23 *)
Definition OperationalMode_ToString (mode : OperationalMode) : string :=
  ("ACAS Resolution Advisory Active: "%string ++ (ACASResolutionAdvisoryActiveV1_ToString mode.(OperationalMode_ACASResolutionAdvisoryActive)) ++
      (nl ++ "Ident Switch Active:             ")%string ++ (IdentSwitchActive_ToString mode.(OperationalMode_IdentSwitchActive)) ++
      (nl ++ "Receiving ATC Services:          ")%string ++ (ReceivingATCServices_ToString mode.(OperationalMode_ReceivingATCServices)))%string.

(* pkg/bds/bds65/fields/operational_mode.go:26-32 *)
Definition ReadOperationalMode (data : list Z) : res OperationalMode :=
  let* r := ReadACASResolutionAdvisoryActiveV1 data in
  let* r_1 := ReadIdentSwitchActive data in
  let* r_2 := ReadReceivingATCServices data in
  Ok ({| OperationalMode_ACASResolutionAdvisoryActive := r;
      OperationalMode_IdentSwitchActive := r_1;
      OperationalMode_ReceivingATCServices := r_2 |}).

(* pkg/bds/bds65/fields/surface_capability_class_v2.go:19-31 *)
Definition SurfaceCapabilityClassV2_ToString (capability : SurfaceCapabilityClassV2) : string :=
  ("1090ES IN (1090 MHz Extended Squitter):                   "%string ++ (ExtendedSquitterIn_ToString capability.(SurfaceCapabilityClassV2_ExtendedSquitterIn)) ++
      (nl ++ "B2 Low (Class B2 Transmit Power Less Than 70 Watts):      ")%string ++ (B2Low_ToString capability.(SurfaceCapabilityClassV2_B2Low)) ++
      (nl ++ "UAT IN (Universal Access Transceiver):                    ")%string ++ (UniversalAccessTransceiverCapability_ToString capability.(SurfaceCapabilityClassV2_UniversalAccessTransceiverCapability)) ++
      (nl ++ "NACV (Navigation Accuracy Category for Velocity):         ")%string ++ (NavigationAccuracyCategoryVelocity_ToString capability.(SurfaceCapabilityClassV2_NavigationAccuracyCategoryVelocity)) ++
      (nl ++ "NIC Supplement-C (NIC Supplement for use on the Surface): ")%string ++ (NICSupplementC_ToString capability.(SurfaceCapabilityClassV2_NICSupplementC)))%string.

(* pkg/bds/bds65/fields/surface_capability_class_v2.go:34-42 *)
Definition ReadSurfaceCapabilityClassV2 (data : list Z) : res SurfaceCapabilityClassV2 :=
  let* r := ReadExtendedSquitterIn data in
  let* r_1 := ReadB2Low data in
  let* r_2 := ReadUniversalAccessTransceiverCapabilitySurface data in
  let* r_3 := ReadNavigationAccuracyCategoryVelocity data in
  let* r_4 := ReadNICSupplementC data in
  Ok ({| SurfaceCapabilityClassV2_ExtendedSquitterIn := r;
      SurfaceCapabilityClassV2_B2Low := r_1;
      SurfaceCapabilityClassV2_UniversalAccessTransceiverCapability := r_2;
      SurfaceCapabilityClassV2_NavigationAccuracyCategoryVelocity := r_3;
      SurfaceCapabilityClassV2_NICSupplementC := r_4 |}).

(* pkg/bds/bds65/fields/surface_operational_mode.go:20-33 *)
Definition SurfaceOperationalMode_ToString (mode : SurfaceOperationalMode) : string :=
  ("ACAS Resolution Advisory Active: "%string ++ (ACASResolutionAdvisoryActiveV2_ToString mode.(SurfaceOperationalMode_ACASResolutionAdvisoryActive)) ++
      (nl ++ "Ident Switch Active:             ")%string ++ (IdentSwitchActive_ToString mode.(SurfaceOperationalMode_IdentSwitchActive)) ++
      (nl ++ "Single Antenna Flag:             ")%string ++ (SingleAntennaFlag_ToString mode.(SurfaceOperationalMode_SingleAntennaFlag)) ++
      (nl ++ "System Design Assurance:         ")%string ++ (SystemDesignAssurance_ToString mode.(SurfaceOperationalMode_SystemDesignAssurance)) ++
      (nl ++ "GPS Antenna:                     ")%string ++ (PrefixMultiLine (GPSAntenna_ToString mode.(SurfaceOperationalMode_GPSAntenna)) ("    "%string)))%string.

(* pkg/bds/bds65/fields/surface_operational_mode.go:36-44 *)
Definition ReadSurfaceOperationalMode (data : list Z) : res SurfaceOperationalMode :=
  let* r := ReadACASResolutionAdvisoryActiveV2 data in
  let* r_1 := ReadIdentSwitchActive data in
  let* r_2 := ReadSingleAntennaFlag data in
  let* r_3 := ReadSystemDesignAssurance data in
  let* r_4 := ReadGPSAntenna data in
  Ok ({| SurfaceOperationalMode_ACASResolutionAdvisoryActive := r;
      SurfaceOperationalMode_IdentSwitchActive := r_1;
      SurfaceOperationalMode_SingleAntennaFlag := r_2;
      SurfaceOperationalMode_SystemDesignAssurance := r_3;
      SurfaceOperationalMode_GPSAntenna := r_4 |}).
