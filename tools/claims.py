"""Which theorems carry which property."""
S='From Verif Require Import GoBase Bits.\n'
IMPORTS={
'ModeS':S+'''From Verif.Spec Require Import Altitude ModeS.
From Verif.Gen Require bitutils modes_common modes_fields modes_messages.
From Verif.Model Require Import Crc ModesReader.''',
'Crc':S+'''From Verif.Spec Require Import Altitude ModeS Crc.
From Verif.Gen Require bitutils modes_common modes_fields modes_messages.
From Verif.Model Require Import Crc ModesReader.''',
'Adsb':S+'''From Verif.Spec Require Import Altitude Floats Adsb Identification Velocity Acas Status AdsbMessages.
From Verif.Gen Require bds05 bds05_fields bds06 bds06_fields adsb adsb_airborne_position
  adsb_airborne_position_fields adsb_surface_position adsb_surface_position_fields
  adsb_no_position_information adsb_aircraft_identification_and_category adsb_airborne_velocity
  adsb_aircraft_status adsb_target_state_and_status adsb_aircraft_operational_status bds08 bds08_fields bds09 bds61 bds62 bds65 acas_ra acas_ra_fields.
From Verif.Model Require Import AdsbReader.''',
'Access':S+'''From Verif.Spec Require Import Floats Adsb AdsbMessages CommB Accessors Text.
From Verif.Gen Require acas_ra acas_ra_fields adsb_surface_position adsb_surface_position_fields adsb_airborne_velocity adsb_aircraft_status
  adsb_aircraft_identification_and_category adsb_target_state_and_status bds08 bds08_fields bds09 bds61 bds62 bds45.
From Verif.Model Require Import Crc ModesReader AdsbReader.
Require Import String.''',
'CommB':S+'''From Verif.Spec Require Import Floats Acas Identification CommB CommBMessages.
From Verif.Gen Require bds_register bds00 bds07 bds07_fields bds10 bds10_fields bds17 bds20 bds30 bds40 bds40_fields
  bds44 bds44_fields bds45 bds45_fields bds50 bds50_fields bds60 bds60_fields acas_ra acas_ra_fields.
From Verif.Model Require Import CommbReader.''',
'Geo':'From Verif Require Import GoBase.\n'+'''From Verif.Model Require Import Geo GeoReal.
From Coq Require Import Reals Floats.SpecFloat.
From Flocq Require Import Core.
From Verif.Spec Require Import Binary64 Cpr.''',
'GeoAccurate':'From Verif Require Import GoBase.\n'+'''From Verif.Model Require Import Geo.
From Coq Require Import Reals Floats.SpecFloat.
From Flocq Require Import Core.
From Verif.Spec Require Import Binary64 Cpr Geodesy MathLib.''',
'Geodesy':'From Verif Require Import GoBase.\n'+'''From Verif.Model Require Import Geo GeoReal.
From Coq Require Import Reals.
From Verif.Spec Require Import Geodesy.''',
'Text':S+'''From Verif.Spec Require Import Text Labels Command.
From Verif.Gen Require modes_common modes_fields modes_messages acas_ra acas_ra_fields bds05 bds06 bds08 bds09 bds61 bds62 bds65 bds_register.
From Verif.Model Require Import Crc ModesReader Cmd.
From Verif.Model Require AdsbReader CommbReader.
Require Import String Ascii.''',
'Report':S+'''From Verif.Spec Require Import Text Report Reports.
From Verif.Gen Require modes_messages acas_ra acas_ra_fields bds10.
From Verif.Model Require Import Crc ModesReader.
From Verif.Model Require AdsbReader CommbReader.
Require Import String Ascii.''',
'Main':S+'''From Verif.Spec Require Import Text Command CommandLine Integer.
From Verif.Model Require Import Cmd Main.
From Verif.Model Require ParseInt.
Require Import String Ascii.''',
}
IMPORTS['CommBReason']=S+'''From Verif.Spec Require Import Floats Text Acas Identification Reasons CommBReasons.
From Verif.Gen Require Import bds00 bds07 bds10 bds17 bds20 bds30 bds40 bds44 bds45 bds50 bds60.
From Verif.Model Require Import CommbReader.
Require Import String List.'''
CLAIMS=[]
def c(cid,status,group,thms,note=''):
    l=[]
    for x in thms.split():
        f,t=x.split('.'); l.append((group,f,t))
    CLAIMS.append((cid,status,l,note))
def more(cid,group,thms):
    for x in CLAIMS:
        if x[0]==cid:
            for y in thms.split():
                f,t=y.split('.'); x[2].append((group,f,t))
# ---- Mode S
M='ModeSReader.'
def ms(s): return ' '.join(M+x for x in s.split())
c('C01','proved','ModeS',ms('read_message_total'))
c('C02','proved','ModeS',ms('read_message_accepts altitude_legal altitude_illegal wrong_format frame17_ok frame17_read frame4_illegal'))
c('C03','proved','ModeS',ms('message_kind'))
c('C04','proved','ModeS',ms('df0_layout df4_layout df5_layout df11_layout frame4_ok'))
c('C05','proved','ModeS',ms('df16_layout df17_layout df18_layout df19_layout df20_layout df21_layout df24_layout frame20_ok'))
c('C06','proved','ModeS',ms('identity_injective identity_surjective emergency_squawks'),'the identity field itself is part of C04 and C05 (DF5, DF21)')
c('C07','proved','ModeS',ms('altitude_unique altitude_25ft_onto'),'that the decoded altitude satisfies Altitude13 is part of C04 and C05 (DF0, 4, 16, 20)')
c('C08','proved','ModeS',ms('gillham_correct gillham_onto'))
c('C09','proved','ModeS',ms('gillham_unit_distance'))
c('C10','proved','ModeS',ms('pack_bytes pack_bits'))
# ---- CRC
R='CrcReader.'
def cr(s): return ' '.join(R+x for x in s.split())
c('C11','proved','Crc',cr('parity_is_remainder'))
c('C12','proved','Crc',cr('parity_linear'))
c('C13','proved','Crc',cr('extended_squitter_check frame17_crc frame17_codeword'))
c('C14','proved','Crc',cr('overlay_roundtrip overlay_check frame4_address'))
c('C15','proved','Crc',cr('error_detection error_detection_overlay'))
c('C16','proved','Crc',cr('overlay_roundtrip'),'the theorem covers every format but DF17 and DF18, DF11 included')
c('C17','proved','Crc',cr('overlay_check'))
c('C18','proved','Crc',cr('check_crc_total'))
# ---- ADS-B
A='AdsbApi.'
def ad(s): return ' '.join(A+x for x in s.split())
c('C19','proved','Adsb',ad('adsb_total'))
c('C20','proved','Adsb',ad('adsb_kind kind_unique adsb_bad_length'))
c('C21','proved','Adsb',ad('airborne_ok airborne_bad_version'))
c('C22','proved','Adsb',ad('airborne_bad_altitude airborne_ok'))
c('C23','proved','Adsb',ad('airborne_ok'))
c('C24','proved','Adsb',ad('surface_fields surface_bad_version'))
c('C25','proved','Adsb',ad('surface_fields'),'the movement table and the track are part of surface_position')
c('C26','partial','Adsb',ad('surface_ok_partial surface_v1_radius_refuted'),'false of the code for version 1, type code 7 without NIC supplement A: the radius reported is "greater than 0.1 NM" although the NIC is 8; everything else is proved')
c('C27','proved','Adsb',ad('identification_ok identification_coherent'))
c('C28','proved','Adsb',ad('velocity_ok velocity_bad_subtype'))
c('C29','proved','Adsb','GroundSpeed.ground_speed GroundSpeed.ground_speed_example')
c('C30','partial','Adsb',ad('status_message_partial')+' Status61.aircraft_status_refuted','false of the code: subtype 0 does not check bits 17-56; the bits of the advisory affected by C43 are excluded')
c('C31','partial','Adsb',ad('target_message_partial')+' Status62.target_fields_partial Status62.target_state_0_heading_refuted Status62.target_state_1_altitude_type_refuted Status62.target_state_1_heading_refuted','false of the code for three fields: heading of subtype 0 (low bits from the wrong byte), altitude type of subtype 1 (bit 8 instead of 9), negative heading of subtype 1')
c('C32','proved','Adsb',ad('operational_message'))
c('C33','partial','Adsb',ad('operational_version_partial operational_version_refuted version_of_the_caller'),'false of the code for the surface operational status of version 2, which reports version 1')
c('C34','partial','Adsb',ad('type0_partial type0_refuted no_position_ok'),'false of the code: the altitude source is reported as GNSS and the surveillance status and antenna flag are lost')
# ---- Comm-B
B='CommBApi.'
def cb(s): return ' '.join(B+x for x in s.split())
def b1(s): return ' '.join('CommB1.'+x for x in s.split())
def b2(s): return ' '.join('CommB2.'+x for x in s.split())
def b3(s): return ' '.join('CommB3.'+x for x in s.split())
c('C35','proved','CommB',cb('commb_total'))
c('C36','proved','CommB',cb('commb_sound commb_one'))
c('C37','proved','CommB',cb('commb_complete commb_increasing commb_registers commb_ambiguous'))
c('C38','proved','CommB',cb('commb_exclusive'))
c('C39','partial','CommB',b1('read_bds00 bds07_partial bds07_refuted coherence_bds07'),'BDS 0,0 is proved; BDS 0,7 is false of the code, which ignores the reserved bits 7-8')
c('C40','partial','CommB',b1('bds10_partial bds10_refuted coherence_bds10'),'false of the code for the surveillance identifier capability, which reads bit 18 instead of bit 35; everything else is proved')
c('C41','proved','CommB',b1('read_bds17'))
c('C42','proved','CommB',b1('read_bds20_iff coherence_bds20'))
c('C43','partial','CommB','AcasReader.resolution_advisory_partial AcasReader.threat_altitude_refuted AcasReader.threat_range_refuted '+b1('bds30_partial'),'false of the code for two threat fields: pulses C1/A1 of the altitude, and one bit of the range')
c('C44','partial','CommB',b1('bds40_partial bds40_refuted bds40_pressure_refuted coherence_bds40'.replace(' coherence_bds40','')),'false of the code: the two selected altitudes are swapped and the status of the pressure is read from bit 1')
c('C45','partial','CommB',b3('routine_report_partial routine_report_refuted routine_source_refuted routine_report_v0_partial routine_report_v0_refuted routine_example')+' CommB4.routine_coherent_v0_partial CommB4.routine_coherent_v0_refuted CommB4.routine_v0_example','false of the code: the top bit of the wind speed is dropped, the source is never reported, the sign of the V0 temperature is ignored')
c('C46','proved','CommB',b3('hazard_report hazard_report_recognised hazard_report_v0 hazard_example')+' CommB4.hazard_coherent_v0 CommB4.hazard_v0_example')
c('C47','proved','CommB',b2('track_and_turn_report track_and_turn_example'))
c('C48','proved','CommB',b2('heading_and_speed_report heading_and_speed_example'))
# ---- positions
c('C49','proved','Geo','CprLocal.airborne_local_decode CprLocal.surface_local_decode CprLocal.airborne_local CprLocal.surface_local','in binary64; the longitude for every library of trigonometric functions accurate to 1e-14 (or for which the number of longitude zones is right), at positions 1e-4 degrees away from the latitudes where the number of longitude zones changes and 1e-3 degrees away from the equator')
c('C50','proved','Geo','CprGlobal.airborne_global CprWitness.polar_zone CprWitness.polar_position')
c('C51','proved','Geodesy','GeoReals.number_of_zones GeoReals.zones_unique GeoReals.zones_symmetric GeoReals.zones_decreasing','in exact arithmetic; in binary64 the symmetry, and the value away from the transitions for accurate libraries')
more('C51','Geo','CprWitness.zones_north_south')
c('C52','partial','Geo','CprGlobal.airborne_global_decode CprWitness.airborne_latitude_range_refuted','false of the code: the latitude of a pair of codes that no position has is not checked')
c('C53','partial','Geo','CprSurface.surface_global_decode CprSurface.surface_global CprWitness.surface_quadrant_refuted CprWitness.surface_reference_refuted','false of the code: the distance to the reference is not circular, and a reference longitude that is not a number (or is huge) panics')
more('C49','GeoAccurate','CprAccurate.airborne_local_accurate CprAccurate.surface_local_accurate CprAccurate.accurate_exists CprAccurate.clear_45')
more('C50','GeoAccurate','CprAccurate.airborne_global_accurate')
more('C51','GeoAccurate','ZonesFloat.zones_binary64')
more('C53','GeoAccurate','CprAccurate.surface_global_accurate')
c('C54','proved','Geodesy','GeoReals.ground_distance GeoReals.distance_bounds GeoReals.distance_symmetric GeoReals.distance_zero GeoReals.distance_triangle GeoReals.distance_quarter','exactly in exact arithmetic; in binary64 up to a centimetre (a tenth of a millimetre below 10 000 km), for every accurate library; the limit to 20 000 km cannot be dropped: at antipodes an accurate library may lead to the square root of a negative number (distance_antipodes_refuted)')
more('C54','GeoAccurate','DistanceFloat.distance_accurate DistanceFloat.distance_accurate_near DistanceFloat.distance_antipodes_refuted DistanceFloat.distance_accurate_example')
more('C54','GeoAccurate','IdealLib.accurate_library_example')
more('C54','Geodesy','Atan2.angle_of_point Atan2.south_west')
# ---- texts and the command
def tx(s): return ' '.join('Texts.'+x for x in s.split())
def lb(s): return ' '.join('Labels.'+x for x in s.split())
def cm(s): return ' '.join('Command.'+x for x in s.split())
c('C55','proved','Text',tx('modes_text_total adsb_text_total commb_text_total ra_text_total_any'))
c('C56','partial','Text',lb('labels_numbered labels_numbered_distinct labels_distinct labels_decimal labels_misnumbered_refuted sense_label_refuted numbered_determines')+' '+tx('sense_text_refuted'),'proved for 109 numbered enumerations (every integer), 24 worded ones and 4 decimal ones; false of the code for four enumerations whose labels carry the number of another code, and for the sense of a resolution advisory, always printed as upward')
c('C57','proved','Text',tx('lines_exist prefix_text prefix_lines prefix_example'))
c('C58','proved','Text',tx('address_text threat_address_text announced_address_text address_text_injective address_example'))
c('C59','proved','Text',tx('adsb_registers register_ids_distinct'))
more('C59','CommB',cb('commb_register_ids'))
c('C60','proved','Text',cm('command_report command_never_panics decode_text decode_reason hex_text_bytes hex_text_unique command_example'))
c('C61','proved','Text',cm('command_report')+' '+tx('body_df16 body_df17 body_df18 body_df20 body_df21 body_df24'))
# ---- accessors
def ac(s): return ' '.join('Accessors.'+x for x in s.split())
c('C62','partial','Access',ac('threat_range_value threat_bearing_value bearing_text_partial bearing_text_refuted'),'the values are proved for every code; the text of a bearing is false of the code above 252 degrees, where its bounds wrap around a byte')
c('C63','proved','Access',ac('surface_bounds surface_bounds_ordered'))
c('C64','proved','Access',ac('velocity_subtype status_subtype target_subtype advisory_form_type advisory_forms_distinct category_set turbulence_status turbulence_status_v0 message_names'))
c('C65','proved','Access','Coherence.adsb_coherent')
more('C44','CommB','Coherence.intention_coherent')
def cl(s): return ' '.join('CommandLine.'+x for x in s.split())
c('C66','proved','Main',cl('main_file main_bad_file lines_unique main_file_example'))
c('C67','partial','Main',cl('main_no_data main_level main_bad_words command_line_unique main_first_word main_data_partial main_data_refuted'),'the word reported is always the first one: when options come first, it is an option and the data are not looked at (main_data_refuted); the rest of the statement is proved')
# ---- whole texts
c('C68','proved','Report','ReportsModeS.modes_report ReportsModeS.modes_report_example')
c('C69','partial','Report','ReportsApi.adsb_report_partial TextsExact.adsb_report_exactly ReportsApi.adsb_report_refuted EmergencyText.emergency_code_refuted EmergencyText.emergency_code_example ReportsApi.adsb_report_example','proved for every message but the advisories whose threat is above 252 degrees, where the printed sector is false (adsb_report_refuted), or whose sense is downward, printed as upward (ra_sense_refuted in C71), and, against the statement, for every emergency report, whose Mode A code is not printed: two reports of the same emergency with different codes have the same text (emergency_code_refuted); the type code, which only tells the kind of the message, is not a line either; adsb_report_exactly shows that these advisories are always printed wrong: the text has the rows of the message if and only if its advisory, if any, is printable; floats are printed by the library, assumed to print no newline')
c('C70','partial','Report','ReportsApi.commb_report_partial TextsExact.commb_report_exactly ReportsApi.commb_report_refuted ReportsApi.commb_report_example','proved for every message but three cases where the text is false: the continuation flag of a data link capability report is printed with the overlay capability (commb_report_refuted), the sector of a threat above 252 degrees, and the downward sense of an advisory, printed as upward; commb_report_exactly: in these cases the text is always wrong, in the others right')
c('C71','partial','Report','ReportsApi.ra_report_partial TextsExact.ra_report_exactly ReportsApi.ra_report_refuted ReportsApi.ra_sense_refuted ReportsApi.ra_report_example','proved for every advisory whose threat is not above 252 degrees, where the printed sector is false (ra_report_refuted), and whose sense is not downward, which is printed as upward (ra_sense_refuted); ra_report_exactly: the text is right for the first and wrong for every other')
# ---- reasons
IMPORTS['Reason']=S+'''From Verif.Spec Require Import Altitude Acas Reasons.
From Verif.Gen Require acas_ra acas_ra_fields.
From Verif.Model Require Import Crc ModesReader AdsbReader.
Require Import String.'''
c('C72','proved','Reason','Reasons.mode_s_reason Reasons.reason_length_example Reasons.reason_format_example')
c('C73','partial','Reason','Reasons.adsb_reason_partial Reasons.adsb_reason_refuted Reasons.reason_velocity_example Reasons.reason_service_level_example','proved for every body but: an aircraft status without information with bits 17-56 not all zero, which is accepted (aircraft_status_refuted in C30); an advisory whose threat altitude has the pulses C1 or A1, which the code misplaces (C43); an operational status of an unknown version, whose error gives the subtype instead of the version (adsb_reason_refuted)')
c('C74','partial','Reason','Reasons.advisory_reason_partial Reasons.advisory_reason_refuted Reasons.reason_advisory_example','proved unless the threat altitude has the pulses C1 or A1, which the code misplaces: a threat at 2300 ft is then refused (advisory_reason_refuted)')
c('C75','partial','CommBReason','CommBReasons.recognition_reason_partial CommBReasons.status_reason_refuted CommBReasons.advisory_text_refuted CommBReasons.recognition_reason_example','every register but: 0,7, whose reserved bits 7 and 8 are not looked at; 3,0, whose error names the number 0x20 instead of 0x30, and whose threat altitude may be misread (C43)')
c('C76','proved','CommBReason','CommBReasons.coherency_reason CommBReasons.decoded_typed CommBReasons.older_typed CommBReasons.coherency_reason_example','typed says that the fields have values of their Go types (float32, uint32); decoded_typed and older_typed say that it holds of every decoded message')
# ---- track
IMPORTS['Track']=S+'''From Verif.Spec Require Import Velocity.
From Verif.Gen Require bds09 adsb_airborne_velocity.
From Verif.Model Require Import AdsbReader.
From Coq Require Import Reals Floats.SpecFloat.
From Flocq Require Import Core.
From Verif.Spec Require Import Binary64 MathLib Track.'''
c('C77','proved','Track','Track.ground_track Track.accurate_atan2_exists Track.ground_track_example','for every math.Atan2 whose error is at most 1e-14 (accurate_atan2); accurate_atan2_exists builds one')
# ---- from the aircraft to the user
IMPORTS['Squitter']=S+'''From Verif.Spec Require Import Altitude Identification Floats Adsb AdsbMessages Velocity Squitter.
From Verif.Gen Require bds05 bds06 bds08 bds08_fields bds09 adsb_airborne_velocity adsb_aircraft_identification_and_category.
From Verif.Model Require Import Crc ModesReader AdsbReader Geo.
From Coq Require Import Reals Floats.SpecFloat.
From Flocq Require Import Core.
From Verif.Spec Require Import Binary64 Cpr Geodesy MathLib Track.'''
c('C78','proved','Squitter','Squitter.airborne_received EndToEnd.airborne_located EndToEnd.airborne_located_near Squitter.squitter_exists EndToEnd.airborne_located_example','the squitter is written field by field in Spec/Squitter.v; the positions and libraries are those of C49 and C50 (clear_of_transitions, accurate)')
c('C79','proved','Squitter','Squitter.surface_received EndToEnd.surface_located EndToEnd.surface_located_near EndToEnd.surface_located_example','the positions and libraries are those of C49 and C50')
c('C80','proved','Squitter','Squitter.identification_received EndToEnd.identification_example','')
c('C81','proved','Squitter','EndToEnd.velocity_told EndToEnd.velocity_told_supersonic EndToEnd.velocity_told_example','')
IMPORTS['Reply']=S+'''From Verif.Spec Require Import Altitude ModeS Crc Identification Floats Adsb CommB CommBMessages Squitter Reply.
From Verif.Gen Require modes_fields modes_messages bds20 bds50 bds60 bds61 adsb_aircraft_status.
From Verif.Model Require Import Crc ModesReader AdsbReader CommbReader.'''
c('C82','proved','Reply','Reply.altitude_reply_told Reply.altitude_commb_told Reply.air_air_told Reply.air_air_long_told Reply.reply_exists Reply.altitude_reply_example Reply.altitude13_example','the reply is written field by field in Spec/Reply.v')
c('C83','proved','Reply','Reply.identity_reply_told Reply.identity_commb_told Reply.identity_reply_example','')
c('C84','proved','Reply','Reply.all_call_told Reply.all_call_example','')
c('C85','proved','Reply','Registers.track_register_told Registers.heading_register_told Registers.identification_register_told Registers.track_register_example Registers.heading_register_example Registers.identification_register_example','the other registers are those of C39 to C46')
c('C86','proved','Reply','Squitter.emergency_received Squitter.emergency_example','')
c('C87','proved','Main','IntegerText.parse_int IntegerText.dec_integer Level.level_not_integer Level.level_unknown Level.level_used Level.level_default Level.integer_example','the panic of an unknown level is deliberate in the code (cmd/main.go:36)')
# ---- concrete, non-trivial cases meeting the hypotheses
for cid,f in dict(C01='frames_example',C03='kind_example',C04='layout_example',C05='long_layout_example',C06='layout_example',
                  C07='altitude_example',C08='gillham_example',C09='gillham_example',C10='pack_example').items():
    more(cid,'ModeS','Examples.'+f)
for cid,f in [('C11','parity_example'),('C12','linear_example'),('C15','detection_example'),('C15','detection_overlay_example'),
              ('C16','roundtrip_example'),('C17','allowed_example'),('C18','allowed_example')]:
    more(cid,'Crc','Examples.'+f)
for cid,f in [('C19','any_bytes_example'),('C20','kinds_example'),('C21','airborne_example'),('C22','bad_altitude_example'),
              ('C23','airborne_gillham_example'),('C24','surface_example'),('C25','surface_example'),('C26','surface_example'),
              ('C27','identification_example'),('C28','velocity_example'),('C30','status_example'),('C31','target_example'),
              ('C32','operational_example'),('C33','operational_example'),('C34','type0_example'),('C34','no_position_example')]:
    more(cid,'Adsb','ExamplesAdsb.'+f)
more('C63','Access','ExamplesAdsb.bounds_example')
more('C65','Access','ExamplesAdsb.coherent_example')
for cid,f in [('C35','commb_any_example'),('C37','registers_example'),('C38','exclusive_example'),('C39','status_07_example'),
              ('C40','capability_10_example'),('C41','capability_17_example'),('C42','identification_20_example'),
              ('C43','advisory_example'),('C43','advisory_altitude_example'),('C44','intention_example')]:
    more(cid,'CommB','ExamplesCommB.'+f)
for cid,f in [('C49','airborne_local_example'),('C49','surface_local_example'),('C50','airborne_global_example'),('C53','surface_global_example')]:
    more(cid,'GeoAccurate','ExamplesGeo.'+f)

IMPORTS['Concurrent']=S+"""From Verif.Model Require Import Crc ModesReader Memory MemoryCode.
From Verif.Spec Require Import Calls.
Require Import List."""
c('C88','proved','Concurrent','Concurrent.concurrent_answers Concurrent.concurrent_end Concurrent.four_calls_valid Concurrent.four_calls_answer','the functions that allocate or write bytes are programs of Model/MemoryCode.v, with single reads and writes of bytes as steps; those that only read are their models applied to the bytes, read one by one; the interleaving is sequentially consistent, which Go grants to programs without data races')
c('C89','proved','Concurrent','Concurrent.content_private Concurrent.four_calls_valid Concurrent.four_calls_answer')
c('C90','partial','Concurrent','Concurrent.reused_buffer_partial Concurrent.reused_buffer_text_partial Concurrent.reused_buffer_refuted','proved of every field but Payload and Parity of the embedded MessageData, which are windows of the buffer of the caller and follow its changes (reused_buffer_refuted); the text of the message, its format and its content do not change')
IMPORTS['Printout']=S+"""From Verif.Model Require Import Cmd Main.
From Verif.Model Require ParseInt.
From Verif.Gen Require bds08_fields.
From Verif.Spec Require Import Squitter Reply Text Report Reports Command CommandLine Integer Printout.
Require Import String List.
Local Open Scope string_scope.
Local Open Scope list_scope."""
c('C91','proved','Printout','PrintoutApi.command_tells PrintoutApi.first_word_tells PrintoutApi.file_tells PrintoutApi.tells_identification_example PrintoutApi.tells_velocity_example PrintoutApi.tells_altitude_example PrintoutApi.file_tells_example','for the first word the level is 0 (main_data_refuted, C67, tells what happens when options precede the data); the surface squitters of type 7 for version 1 are left out: their radius is wrong (surface_v1_radius_refuted)')
c('C92','proved','Squitter','Moving.airborne_located_moving Moving.airborne_crossing Moving.surface_located_moving','the positions and libraries are those of C49 and C50; airborne_located_example and surface_located_example (C78, C79) show such squitters')
more('C92','GeoAccurate','CprMoving.airborne_global_moving CprMoving.surface_global_moving CprMoving.airborne_global_crossing CprMoving.surface_global_crossing CprMoving.moving_example CprMoving.crossing_example')
IMPORTS['Noise']=S+"""From Verif.Spec Require Import Crc Identification Squitter Reply Noise Text Report Command.
From Verif.Gen Require modes_fields modes_messages.
From Verif.Model Require Import Crc ModesReader Cmd.
Require Import String List."""
c('C93','proved','Noise','Noise.squitter_damaged Noise.device_damaged Noise.squitter_damaged_printed Noise.squitter_misread Noise.reply_damaged Noise.all_call_damaged Noise.squitter_one_bit_refuted Noise.all_call_one_bit_refuted Noise.squitter_six_bits_refuted Noise.damaged_example Noise.damaged_reply_example Noise.all_call_damaged_example','what the code cannot see is stated too: one wrong bit in the format makes of every squitter a Comm-B reply of the aircraft F1B77E (squitter_one_bit_refuted), one wrong bit in the address of an all-call reply is not seen without a list of interrogators (all_call_one_bit_refuted), and six wrong bits may give another squitter (squitter_six_bits_refuted)')

IMPORTS['Payload']=S+"""From Verif.Spec Require Import Altitude ModeS Crc Identification Floats Adsb CommB CommBMessages Squitter Reply Payloads.
From Verif.Gen Require bds00 bds07 bds09 bds10 bds17 bds30 bds40 bds44 bds45 bds50 bds60 bds61 adsb_aircraft_status adsb_airborne_velocity acas_ra acas_ra_fields modes_messages.
From Verif.Model Require Import Crc ModesReader AdsbReader CommbReader."""
c('C94','partial','Payload','Payloads.airspeed_told Payloads.airspeed_supersonic_told Payloads.airspeed_kind_refuted Payloads.airspeed_told_example','everything but the kind of the airspeed: the indicated/true bit is not in the message, two squitters that differ by it are read as the same message (airspeed_kind_refuted)')
c('C95','partial','Payload','Payloads.advisory_reply_told_partial Payloads.advisory_squitter_told_partial Payloads.advisory_register_told_partial Payloads.advisory_told_example','readable excludes the threats of which the code loses a bit of the altitude (pulses C1 and A1) or the last bit of the range: threat_altitude_refuted and threat_range_refuted (C43)')
c('C96','partial','Payload','Registers2.some_track_told_partial Registers2.track_lost_refuted Registers2.some_heading_told Registers2.some_track_example Registers2.some_heading_example','the heading register in full; a track register with a ground speed above 200 kt and no airspeed is never listed, because the code compares the speed with the zero of the missing one (track_lost_refuted)')
c('C97','proved','Payload','Registers2.routine_told Registers2.hazard_told Registers2.services_told Registers2.status_told Registers2.nothing_told Registers2.routine_told_example Registers2.hazard_told_example Registers2.services_told_example','at least one value must be present: ReadCommBMessage takes a register without any for another one')
c('C98','partial','Payload','Registers2.intention_told_partial Registers2.intention_lost_refuted Registers2.capability_told_partial Registers2.intention_told_example Registers2.capability_told_example','4,0: when both altitudes and the pressure are there and the altitudes are the same; the code does not list the register when one is missing (intention_lost_refuted); 1,0: every field but the surveillance identifier flag (C40 tells which bit the code reads)')

IMPORTS['Statuses']=S+"""From Verif.Spec Require Import Altitude ModeS Crc Identification Floats Adsb Squitter Reply Payloads Statuses.
From Verif.Gen Require bds62 bds65 adsb_target_state_and_status adsb_aircraft_operational_status.
From Verif.Model Require Import Crc ModesReader AdsbReader."""
c('C99','partial','Statuses','Statuses.operational_0_received Statuses.airborne_operational_1_received Statuses.surface_operational_1_received Statuses.airborne_operational_2_received Statuses.surface_operational_2_received Statuses.surface_level_refuted Statuses.operational_2_example','every field of the five formats, and the version of four of them: the surface status of version 2 is told as version 1 (surface_level_refuted)')
c('C100','partial','Statuses','Statuses.target_1_received_partial Statuses.target_2_received_partial Statuses.target_heading_refuted Statuses.target_kind_refuted Statuses.target_west_refuted Statuses.target_1_example Statuses.target_2_example','every field but the three that the code misreads (C31): two target headings may be told alike (target_heading_refuted), the source of the selected altitude is not told (target_kind_refuted), a selected heading to the west is told wrong (target_west_refuted)')

IMPORTS["Frames"]=S+"""From Verif.Model Require Import Crc ModesReader Cmd Main.
From Verif.Model Require AdsbReader CommbReader ParseInt.
From Verif.Gen Require modes_messages.
From Verif.Spec Require Import Altitude ModeS Squitter Reply Payloads Text Report Reports Command CommandLine Integer Printout Frames.
Require Import String List.
Local Open Scope string_scope.
Local Open Scope list_scope."""
c('C101','partial','Frames','Frames.frame_printed Frames.squitter_printed Frames.device_received Frames.device_printed Frames.altitude_register_printed Frames.squawk_register_printed Frames.advisory_printed FramesApi.first_word_frame FramesApi.file_frames FramesApi.track_printed_example','of every frame but those whose text is wrong (C70): the advisories of a downward sense or with a bearing of 43 to 60, and the register 1,0 when its continuation flag differs from its overlay flag; the rows of each message are those of C69 and C70')

IMPORTS["Departures"]=S+"""From Verif.Spec Require Import Altitude Floats Acas Status CommB CommBMessages Adsb AdsbMessages Text Departures.
From Verif.Gen Require acas_ra acas_ra_fields bds07 bds10 bds30 bds40 bds44 bds61 bds62.
From Verif.Model Require Import AdsbReader.
Require Import String List."""
c('C102','proved','Departures',' '.join('Departures.'+x for x in 'advisory_departs advisory_register_departs status_departs target_departs status_register_departs capability_departs intention_departs routine_departs routine_v0_departs surface_7_departs sense_departs bearing_departs continuation_departs threat_read_example heading_read_example'.split()),'the behaviour as it is, in full, of the readers whose standard behaviour is only partial (C26, C30, C31, C39, C40, C43, C44, C45, C70, C71); C34 and C99 state theirs with type0_refuted and surface_level_refuted')
IMPORTS["ZoneTable"]='From Verif Require Import GoBase.\n'+"""From Verif.Model Require Import Geo GeoReal.
From Coq Require Import Reals Floats.SpecFloat List.
From Flocq Require Import Core.
From Verif.Spec Require Import Binary64 Geodesy MathLib ZoneTable."""
c('C103','proved','ZoneTable',' '.join('ZoneTable.'+x for x in 'zones_tabulated tabulated_one table_exact table_binary64 clear_by_table amsterdam'.split()),'the table is a list of the 58 published latitudes; clear_by_table gives the hypothesis of C49, C50, C53 and C92 from the table')
IMPORTS["Meanings"]=S+"""From Verif.Spec Require Import Text Labels Meanings.
Require Import String List."""
c('C104','partial','Meanings',' '.join('Meanings.'+x for x in 'meaning_named meaning_worded meaning_otherwise meanings_complete misnamed_refuted'.split()),'false of the 17 codes of misnamed, which do not show their meaning: flight status 4 and 5 (an identification without alert is shown as an alert), transmission rate 0, width of code 10, velocity uncertainty 2 to 4, subnetwork versions 2 to 5, source 4, integrity 2 and 3, vertical accuracy 1 to 3; proved for all others, and what is shown for these is proved')
IMPORTS["Lossless"]=S+"""From Verif.Gen Require modes_messages.
From Verif.Model Require Import Crc ModesReader.
From Verif.Spec Require Import Crc Squitter Reply Lossless.
Require Import List."""
c('C105','proved','Lossless',' '.join('Lossless.'+x for x in 'frame_kept frame_unique accepted_sent squitter_iff kept_example'.split()),'accepted_sent is the converse of C80 to C84')
more('C49','GeoAccurate','GeoTests.test_airborne_local_example GeoTests.test_surface_local_1_example GeoTests.test_surface_local_2_example')
more('C50','GeoAccurate','GeoTests.test_airborne_global_1_example GeoTests.test_airborne_global_2_example')
more('C53','GeoAccurate','GeoTests.test_surface_global_1_example GeoTests.test_surface_global_2_example')
IMPORTS["Equator"]=IMPORTS['Squitter'].replace('Cpr Geodesy MathLib','Cpr Geodesy MathLib ZoneTable Precise',1)
c('C106','proved','Equator',' '.join('Equator.'+x for x in 'airborne_global_everywhere airborne_local_everywhere airborne_moving_everywhere changes_by_table accuracy_refuted clear_equator precise_exists'.split())+' EquatorApi.airborne_located_everywhere EquatorApi.airborne_near_everywhere EquatorApi.tropics EquatorApi.equator_crossing','airborne messages only: next to the equator the step of surface messages is too fine for binary64 (accuracy_refuted)')
IMPORTS["Everywhere"]=IMPORTS['Squitter'].replace('Cpr Geodesy MathLib','Cpr Geodesy MathLib ZoneTable Precise Sent',1)
c('C107','proved','Everywhere',' '.join('Everywhere.'+x for x in 'airborne_pair_everywhere airborne_still_everywhere airborne_one_everywhere sent_zones sharp_exists between_zones pole_side'.split())+' EverywhereApi.squitters_everywhere EverywhereApi.squitter_everywhere','airborne messages; those of aircraft on the ground are in C112')
IMPORTS["Flight"]=IMPORTS['Squitter'].replace('Cpr Geodesy MathLib','Cpr Geodesy MathLib ZoneTable Precise Sent Flight',1).replace('Velocity Squitter','Velocity Squitter Noise',1)
c('C108','proved','Flight',' '.join('Flight.'+x for x in 'tracked tracked_from_pair tracked_from_place other_address other_format other_type other_damaged other_without_altitude can_send can_send_ground antimeridian gate_to_gate'.split()),'the receiver (ReadMessage, CheckCRC, ReadADSBMessage and GetCPRAirborneLocalPosition or GetCPRSurfaceLocalPosition on each frame) is written in Spec/Flight.v, as a user of the library writes it; sharp libraries exist (C107); positions on the ground are those of C112')
IMPORTS["Missing"]=S+"""From Verif.Spec Require Import Floats AdsbMessages Squitter Missing.
From Verif.Gen Require bds09 adsb_airborne_velocity modes_messages.
From Verif.Model Require Import Crc ModesReader AdsbReader.
"""
c('C109','partial','Missing','Missing.ground_speed_missing Missing.supersonic_missing Missing.airspeed_missing Missing.supersonic_airspeed_missing Missing.position_without_altitude_refuted','velocities: proved for the four subtypes. Positions: the code is false there, and position_without_altitude_refuted proves it: an airborne position without altitude (code 0) is refused as a whole by ReadADSBMessage, and the position it carries is lost')
IMPORTS["Session"]=S+"""From Verif.Spec Require Import Altitude Floats Adsb AdsbMessages Squitter Statuses Noise Session.
From Verif.Model Require Import Crc ModesReader AdsbReader.
"""
c('C110','partial','Session',' '.join('Session.'+x for x in 'session_learned airborne_integrity surface_integrity_partial elsewhere_address elsewhere_format elsewhere_type elsewhere_damaged session_example'.split()),'what is learned and the airborne positions: proved. Surface positions: the code is false for type 7 in version 1 without supplement A, for every aircraft and every history (surface_integrity_refuted). The receiver is written in Spec/Session.v; it takes the version from the number the status carries, because the version GetADSBVersion gives for a surface status of version 2 is wrong (C99_surface_level_refuted)')
IMPORTS["Receiver"]=IMPORTS['Flight'].replace('ZoneTable Precise Sent Flight','ZoneTable Precise Sent Flight Receiver',1).replace('Velocity Squitter Noise','Velocity Squitter Statuses Noise Session',1)
c('C111','proved','Receiver','Receiver.crowd Receiver.followed Receiver.crowd_followed Receiver.crowd_example','the table receiver is written in Spec/Receiver.v, from those of Spec/Flight.v and Spec/Session.v')
IMPORTS["Ground"]=IMPORTS["Everywhere"]
c('C112','proved','Ground',' '.join('Ground.'+x for x in 'surface_pair_everywhere surface_one_everywhere sent_ground_zones closest'.split())+' GroundApi.squitters_on_ground GroundApi.squitter_on_ground GroundApi.refused_on_ground','sharp libraries (C107) exist; the equator is excluded because there a sharp library may make the number of zones 60 (C106), and the latitudes above 86.9999 because of the transition at 87 degrees, which surface messages approach to less than the bound; GetCPRSurfaceGlobalPosition only finds positions in the hemisphere of the reference and within 45 degrees (C49)')
more('C108','Flight','FlightGround.tracked_from_ground FlightGround.from_the_gate')
IMPORTS["Radar"]=S+"""From Verif.Spec Require Import Altitude ModeS Crc Squitter Reply Noise Radar.
From Verif.Gen Require modes_messages modes_fields.
From Verif.Model Require Import Crc ModesReader.
From Coq Require Import List.
"""
c('C113','proved','Radar',' '.join('Radar.'+x for x in 'replies_kept histories foreign_sender foreign_squitter foreign_damaged empty_list radar_example'.split()),'the receiver is written in Spec/Radar.v, as a user of the library writes it; histories: every sequence of frames is a history for every aircraft; a damaged reply that is read as an extended squitter is covered by squitter acceptance (C93)')
IMPORTS["Said"]=S+"""From Verif.Spec Require Import Altitude Floats Adsb Identification Velocity Status AdsbMessages Crc Squitter Said.
From Verif.Gen Require modes_messages bds08 bds09 bds61 adsb_aircraft_identification_and_category adsb_aircraft_status adsb_airborne_velocity.
From Verif.Model Require Import Crc ModesReader AdsbReader.
From Coq Require Import List.
"""
c('C114','proved','Said','Said.callsign_said Said.emergency_said Said.velocity_said Said.every_history Said.said_example Said.emergency_example Said.velocity_example','the receiver is written in Spec/Said.v; every_history: every sequence of frames of bytes is a history for every aircraft and every decidable subject; what VelocityOf says is C28, with its bounds on the float fields')
IMPORTS["Answers"]=S+"""From Verif.Spec Require Import Altitude ModeS Crc Squitter Reply Adsb Identification CommB Radar Answers.
From Verif.Gen Require modes_messages bds20 bds50 bds60.
From Verif.Model Require Import Crc ModesReader CommbReader.
From Coq Require Import List.
"""
c('C115','proved','Answers',' '.join('Answers.'+x for x in 'identity_answered track_answered heading_answered every_history identity_example track_example'.split()),'the receiver is written in Spec/Answers.v; what each report says is C42, C47 and C48; with an empty list at the start CheckCRC lets every reply through (C113)')
more('C110','Session','Session.surface_integrity_refuted Session.surface_session_example')
more('C114','Said','Said.subjects_decided')
more('C115','Answers','Answers.subjects_decided')
IMPORTS["Order"]=S+"""From Verif.Spec Require Import Altitude ModeS Crc Squitter Reply Order Radar Said Answers.
From Verif.Gen Require modes_messages.
From Verif.Model Require Import Crc ModesReader AdsbReader CommbReader.
From Coq Require Import List.
"""
c('C116','proved','Order',' '.join('Order.'+x for x in 'replies_order squitters_order registers_order other_squitter other_reply order_example'.split()),'the receivers are those of Spec/Radar.v, Spec/Said.v and Spec/Answers.v, the last two for any content that can be picked in the message read, and that of Spec/Receiver.v with any mathematical library (positions_order)')
IMPORTS["OrderPositions"]=IMPORTS["Receiver"]+"\nFrom Verif.Spec Require Order.\n"
more('C116','OrderPositions','OrderPositions.positions_order')
IMPORTS["Alike"]=S+"""From Verif.Spec Require Import Alike.
From Verif.Gen Require modes_common modes_messages modes_fields.
From Verif.Model Require Import Crc ModesReader.
From Verif.Spec Require Lossless.
From Verif.Proofs Require SameText Lossless.
"""
c('C117','proved','Alike','SameText.same_text SameText.same_squitter SameText.same_text_example','alike (Spec/Alike.v): the same format and the same value of every field but the raw part, which holds the parity and the spare bits and is not printed; kept_example in C105 is a squitter that meets the hypotheses of same_squitter')
