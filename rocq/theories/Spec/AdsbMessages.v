(* What ReadADSBMessage must return, message kind by message kind. [v] is the ADS-B version of
   the sender (0, 1, 2), [a] and [c] its NIC supplements A and C, as given by the caller. *)
From Verif Require Import GoBase Bits.
From Verif.Spec Require Import Altitude Floats Adsb Identification Velocity Status.
From Verif.Gen Require adsb adsb_airborne_position adsb_airborne_position_fields adsb_airborne_velocity
  adsb_aircraft_identification_and_category adsb_aircraft_operational_status adsb_aircraft_status
  adsb_no_position_information adsb_surface_position adsb_surface_position_fields
  adsb_target_state_and_status bds05 bds06 bds08 bds08_fields bds09.
From Verif.Model Require Import AdsbReader.
Local Open Scope Z_scope.

(* the kind of a decoded message: its dynamic type *)
Definition kind (m : Message) : Kind :=
  match m with
  | ANoPosition _ => KNoPosition | AAirborneType0 _ => KType0 | AIdentification _ => KIdentification
  | ASurface _ => KSurface | AAirborne _ => KAirborne | AVelocity _ => KVelocity
  | AStatus _ => KStatus | ATarget _ => KTarget | AOperational _ => KOperational
  end.

(* ---- airborne positions: the register, and the integrity that follows from the type code,
   the version and the supplements. The integrity bounds are compared through their labels. *)
Inductive AirborneOf (v : Z) (a : bool) (data : list Z) : adsb_airborne_position.Message -> Prop :=
| airborne_0 alt hpl mu : v = 0 -> Altitude12 data alt ->
    Forall (says (adsb_airborne_position_fields.HorizontalProtectionLimit_ToString hpl)) (hpl_airborne_v0 (bits 1 5 data)) ->
    Forall (says (adsb_airborne_position_fields.ContainmentRadius_ToString mu)) (mu_airborne_v0 (bits 1 5 data)) ->
    AirborneOf v a data (adsb_airborne_position.IMessage_AirbornePositionV0
      {| adsb_airborne_position.AirbornePositionV0_AirbornePosition := airborne_position data alt;
         adsb_airborne_position.AirbornePositionV0_HorizontalProtectionLimit := hpl;
         adsb_airborne_position.AirbornePositionV0_ContainmentRadius := mu |})
| airborne_1 alt hcr nic rc : v = 1 -> Altitude12 data alt ->
    nic_airborne_v1 (bits 1 5 data) a = (nic, rc) ->
    says (adsb_airborne_position_fields.HorizontalContainmentRadiusV1_ToString hcr) rc ->
    AirborneOf v a data (adsb_airborne_position.IMessage_AirbornePositionV1
      {| adsb_airborne_position.AirbornePositionV1_AirbornePosition := airborne_position data alt;
         adsb_airborne_position.AirbornePositionV1_NavigationIntegrityCodeSupplementA := a;
         adsb_airborne_position.AirbornePositionV1_HorizontalContainmentRadius := hcr;
         adsb_airborne_position.AirbornePositionV1_NavigationIntegrityCategory := nic |})
| airborne_2 alt hcr nic rc : v = 2 -> Altitude12 data alt ->
    nic_airborne_v2 (bits 1 5 data) a (bit 8 data) = (nic, rc) ->
    says (adsb_airborne_position_fields.HorizontalContainmentRadiusV2_ToString hcr) rc ->
    AirborneOf v a data (adsb_airborne_position.IMessage_AirbornePositionV2
      {| adsb_airborne_position.AirbornePositionV2_AirbornePosition := airborne_position data alt;
         adsb_airborne_position.AirbornePositionV2_NavigationIntegrityCodeSupplementA := a;
         adsb_airborne_position.AirbornePositionV2_NavigationIntegrityCodeSupplementB := bits 8 8 data;
         adsb_airborne_position.AirbornePositionV2_HorizontalContainmentRadius := hcr;
         adsb_airborne_position.AirbornePositionV2_NavigationIntegrityCategory := nic |}).

(* ---- type code 0: a position with no integrity; its altitude is barometric *)
Definition type0_position (data : list Z) (alt : Z) : bds05.AirbornePosition :=
  {| bds05.AirbornePosition_FormatTypeCode := 0;
     bds05.AirbornePosition_SurveillanceStatus := bits 6 7 data;
     bds05.AirbornePosition_SingleAntennaFlag := bits 8 8 data;
     bds05.AirbornePosition_AltitudeSource := 0;
     bds05.AirbornePosition_AltitudeReportMethod := bits 16 16 data;
     bds05.AirbornePosition_AltitudeInFeet := alt;
     bds05.AirbornePosition_Time := bits 21 21 data;
     bds05.AirbornePosition_CPRFormat := bits 22 22 data;
     bds05.AirbornePosition_EncodedLatitude := bits 23 39 data;
     bds05.AirbornePosition_EncodedLongitude := bits 40 56 data |}.

(* ---- surface positions *)
Inductive SurfaceOf (v : Z) (a c : bool) (data : list Z) : adsb_surface_position.Message -> Prop :=
| surface_0 p hpl mu : v = 0 -> surface_position data p ->
    says (adsb_surface_position_fields.HorizontalProtectionLimit_ToString hpl) (hpl_surface_v0 (bits 1 5 data)) ->
    Forall (says (adsb_surface_position_fields.ContainmentRadius_ToString mu)) (mu_surface_v0 (bits 1 5 data)) ->
    SurfaceOf v a c data (adsb_surface_position.IMessage_SurfacePositionV0
      {| adsb_surface_position.SurfacePositionV0_SurfacePosition := p;
         adsb_surface_position.SurfacePositionV0_HorizontalProtectionLimit := hpl;
         adsb_surface_position.SurfacePositionV0_ContainmentRadius := mu |})
| surface_1 p hcr nic rc : v = 1 -> surface_position data p ->
    nic_surface_v1 (bits 1 5 data) a = (nic, rc) ->
    says (adsb_surface_position_fields.HorizontalContainmentRadiusV1_ToString hcr) rc ->
    SurfaceOf v a c data (adsb_surface_position.IMessage_SurfacePositionV1
      {| adsb_surface_position.SurfacePositionV1_SurfacePosition := p;
         adsb_surface_position.SurfacePositionV1_nicSupplementA := a;
         adsb_surface_position.SurfacePositionV1_HorizontalContainmentRadius := hcr;
         adsb_surface_position.SurfacePositionV1_NavigationIntegrityCategory := nic |})
| surface_2 p hcr nic rc : v = 2 -> surface_position data p ->
    nic_surface_v2 (bits 1 5 data) a c = (nic, rc) ->
    says (adsb_surface_position_fields.HorizontalContainmentRadiusV2_ToString hcr) rc ->
    SurfaceOf v a c data (adsb_surface_position.IMessage_SurfacePositionV2
      {| adsb_surface_position.SurfacePositionV2_SurfacePosition := p;
         adsb_surface_position.SurfacePositionV2_nicSupplementA := a;
         adsb_surface_position.SurfacePositionV2_nicSupplementC := c;
         adsb_surface_position.SurfacePositionV2_HorizontalContainmentRadius := hcr;
         adsb_surface_position.SurfacePositionV2_NavigationIntegrityCategory := nic |}).

(* ---- identification: type code 1, 2, 3, 4 names the category sets D, C, B, A *)
Definition category (data : list Z) : bds08_fields.AircraftCategory :=
  if bits 1 5 data =? 1 then bds08_fields.IAircraftCategory_AircraftCategorySetD (bits 6 8 data)
  else if bits 1 5 data =? 2 then bds08_fields.IAircraftCategory_AircraftCategorySetC (bits 6 8 data)
  else if bits 1 5 data =? 3 then bds08_fields.IAircraftCategory_AircraftCategorySetB (bits 6 8 data)
  else bds08_fields.IAircraftCategory_AircraftCategorySetA (bits 6 8 data).

Definition identification (data : list Z) : bds08.AircraftIdentificationAndCategory :=
  {| bds08.AircraftIdentificationAndCategory_FormatTypeCode := bits 1 5 data;
     bds08.AircraftIdentificationAndCategory_Category := category data;
     bds08.AircraftIdentificationAndCategory_Identification := text (List.map shown (char_codes data)) |}.

(* the category set D (type code 1) and the categories of set C above 3 are reserved *)
Definition category_defined (data : list Z) : Prop :=
  bits 1 5 data <> 1 /\ (bits 1 5 data = 2 -> bits 6 8 data <= 3).

(* ---- velocity: the subtype is bits 6-8 *)
Inductive VelocityOf (data : list Z) : bds09.AirborneVelocity -> Prop :=
| velocity_1 : bits 6 8 data = 1 ->
    VelocityOf data (bds09.IAirborneVelocity_AirborneVelocityGroundSpeedNormal (ground_speed_normal data))
| velocity_2 : bits 6 8 data = 2 ->
    VelocityOf data (bds09.IAirborneVelocity_AirborneVelocityGroundSpeedSupersonic (ground_speed_supersonic data))
| velocity_3 heading : bits 6 8 data = 3 -> is_value heading (inject_Z (bits 15 24 data) * (360 # 1024)) ->
    VelocityOf data (bds09.IAirborneVelocity_AirborneVelocityAirSpeedNormal (air_speed_normal data heading))
| velocity_4 heading : bits 6 8 data = 4 -> is_value heading (inject_Z (bits 15 24 data) * (360 # 1024)) ->
    VelocityOf data (bds09.IAirborneVelocity_AirborneVelocityAirSpeedSupersonic (air_speed_supersonic data heading)).

(* whatever the version and supplements, the position itself is right *)
Definition surface_part (m : adsb_surface_position.Message) : bds06.SurfacePosition :=
  match m with
  | adsb_surface_position.IMessage_SurfacePositionV0 x => adsb_surface_position.SurfacePositionV0_SurfacePosition x
  | adsb_surface_position.IMessage_SurfacePositionV1 x => adsb_surface_position.SurfacePositionV1_SurfacePosition x
  | adsb_surface_position.IMessage_SurfacePositionV2 x => adsb_surface_position.SurfacePositionV2_SurfacePosition x
  end.


Definition type0_message (p : bds05.AirbornePosition) (v : Z) : adsb_airborne_position.AirbornePositionType0 :=
  {| adsb_airborne_position.AirbornePositionType0_AirbornePosition := p;
     adsb_airborne_position.AirbornePositionType0_NavigationIntegrityCategory := 0;
     adsb_airborne_position.AirbornePositionType0_adsbVersion := v |}.


Definition no_position (alt v : Z) : adsb_no_position_information.NoPositionInformation :=
  {| adsb_no_position_information.NoPositionInformation_adsbVersion := v;
     adsb_no_position_information.NoPositionInformation_FormatTypeCode := 0;
     adsb_no_position_information.NoPositionInformation_AltitudeBarometric := alt;
     adsb_no_position_information.NoPositionInformation_NavigationIntegrityCategory := 0 |}.


(* What CheckCoherency is to tell of an ADS-B body: an identification has legal characters and a
   defined category; an emergency status (bits 9-11) is 0 when the subtype (bits 6-8) says there
   is no information, and not one of the reserved values 6 and 7 when it is reported; the other
   bodies have no redundancy. *)
Definition coherent_body (data : list Z) : Prop :=
  (KindOf data KIdentification -> legal_characters data /\ category_defined data) /\
  (KindOf data KStatus -> (bits 6 8 data = 0 -> bits 9 11 data = 0) /\ (bits 6 8 data = 1 -> bits 9 11 data <= 5)).
