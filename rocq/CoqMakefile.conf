# This configuration file was generated by running:
# coq_makefile -f _CoqProject


###############################################################################
#                                                                             #
# Project files.                                                              #
#                                                                             #
###############################################################################

COQMF_VFILES = theories/GoBase.v theories/Bits.v theories/Gen/acas_ra.v theories/Gen/acas_ra_fields.v theories/Gen/adsb.v theories/Gen/adsb_airborne_position.v theories/Gen/adsb_airborne_position_fields.v theories/Gen/adsb_airborne_velocity.v theories/Gen/adsb_aircraft_identification_and_category.v theories/Gen/adsb_aircraft_operational_status.v theories/Gen/adsb_aircraft_status.v theories/Gen/adsb_no_position_information.v theories/Gen/adsb_surface_position.v theories/Gen/adsb_surface_position_fields.v theories/Gen/adsb_target_state_and_status.v theories/Gen/bds00.v theories/Gen/bds05.v theories/Gen/bds05_fields.v theories/Gen/bds06.v theories/Gen/bds06_fields.v theories/Gen/bds07.v theories/Gen/bds07_fields.v theories/Gen/bds08.v theories/Gen/bds08_fields.v theories/Gen/bds09.v theories/Gen/bds09_fields.v theories/Gen/bds10.v theories/Gen/bds10_fields.v theories/Gen/bds17.v theories/Gen/bds20.v theories/Gen/bds30.v theories/Gen/bds40.v theories/Gen/bds40_fields.v theories/Gen/bds44.v theories/Gen/bds44_fields.v theories/Gen/bds45.v theories/Gen/bds45_fields.v theories/Gen/bds50.v theories/Gen/bds50_fields.v theories/Gen/bds60.v theories/Gen/bds60_fields.v theories/Gen/bds61.v theories/Gen/bds61_fields.v theories/Gen/bds62.v theories/Gen/bds62_fields.v theories/Gen/bds65.v theories/Gen/bds65_fields.v theories/Gen/bds_encoding.v theories/Gen/bds_register.v theories/Gen/bitutils.v theories/Gen/modes_common.v theories/Gen/modes_fields.v theories/Gen/modes_messages.v theories/Model/AdsbReader.v theories/Model/Cmd.v theories/Model/CommbReader.v theories/Model/Crc.v theories/Model/ModesReader.v theories/Spec/Altitude.v theories/Proofs/Tac.v theories/Proofs/Gillham.v theories/Spec/ModeS.v theories/Spec/Crc.v theories/Proofs/CrcPoly.v theories/Proofs/CrcCode.v theories/Proofs/ModesFields.v theories/Proofs/ModeSReader.v theories/Proofs/CrcDistance.v theories/Proofs/CrcReader.v theories/Spec/Floats.v theories/Spec/Adsb.v theories/Proofs/Adsb0506.v theories/Spec/Identification.v theories/Spec/Velocity.v theories/Spec/Acas.v theories/Spec/Status.v theories/Spec/AdsbMessages.v theories/Spec/CommB.v theories/Spec/CommBMessages.v theories/Proofs/Ident.v theories/Proofs/VelocityReader.v theories/Proofs/AcasReader.v theories/Proofs/Status65.v theories/Proofs/Octets.v theories/Proofs/Status61.v theories/Proofs/Status62.v theories/Proofs/AdsbApi.v theories/Proofs/CommB1.v theories/Proofs/CommB2.v theories/Proofs/CommB3.v theories/Proofs/CommBApi.v
COQMF_MLIFILES = 
COQMF_MLFILES = 
COQMF_MLGFILES = 
COQMF_MLPACKFILES = 
COQMF_MLLIBFILES = 
COQMF_METAFILE = 
COQMF_CMDLINE_VFILES = 

###############################################################################
#                                                                             #
# Path directives (-I, -R, -Q).                                               #
#                                                                             #
###############################################################################

COQMF_OCAMLLIBS = 
COQMF_SRC_SUBDIRS = 
COQMF_COQLIBS =  -Q theories Verif 
COQMF_COQLIBS_NOML = -Q theories Verif 
COQMF_CMDLINE_COQLIBS =   

###############################################################################
#                                                                             #
# Coq configuration.                                                          #
#                                                                             #
###############################################################################

COQMF_COQLIB=/usr/lib/ocaml/coq/
COQMF_COQCORELIB=/usr/lib/ocaml/coq/../coq-core/
COQMF_DOCDIR=/usr/share/doc/
COQMF_OCAMLFIND=/usr/bin/ocamlfind
COQMF_CAMLFLAGS=-thread -rectypes -w -a+1..3-4+5..8-9+10..26-27+28..40-41-42+43-44-45+46..47-48+49..57-58+59..66-67-68+69-70   -safe-string -strict-sequence
COQMF_WARN=-warn-error +a-3
COQMF_HASNATDYNLINK=true
COQMF_COQ_SRC_SUBDIRS=boot config lib clib kernel library engine pretyping interp gramlib parsing proofs tactics toplevel printing ide stm vernac plugins/btauto plugins/cc plugins/derive plugins/extraction plugins/firstorder plugins/funind plugins/ltac plugins/ltac2 plugins/micromega plugins/nsatz plugins/ring plugins/rtauto plugins/ssr plugins/ssrmatching plugins/syntax
COQMF_COQ_NATIVE_COMPILER_DEFAULT=ondemand
COQMF_WINDRIVE=

###############################################################################
#                                                                             #
# Native compiler.                                                            #
#                                                                             #
###############################################################################

COQMF_COQPROJECTNATIVEFLAG = 

###############################################################################
#                                                                             #
# Extra variables.                                                            #
#                                                                             #
###############################################################################

COQMF_OTHERFLAGS = 
COQMF_INSTALLCOQDOCROOT = Verif
