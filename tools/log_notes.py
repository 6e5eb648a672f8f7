# more of the same, read by gen_log.py
TIGHT.update({
 'auto1_Json_1_qascii': ['C95_tight', 'C95_call'], 'auto1_Json_7_surrogate_pair': ['C94_grammar', 'C94_spelling'], 'auto1_Codec_2_fold_key': ['C96_decoded', 'C96_field'],
 'auto1_Float64_4_render_e': ['C100_json', 'C100_distinct'], 'auto1_Float64_5_shortest': ['C100_json', 'C100_distinct'], 'auto1_Registry_4_is_response': ['C15_kinds'],
 'auto1_CentralSystem_4_cstep': ['C41_function_set'], 'auto1_ChargePoint_3_srv_step': ['C62_ended_for_good'],
 'auto1_System_3_shaken': ['C73_handshake'], 'auto1_Soap_7_fault_text': ['C50_fault_text'],
 'auto1_XmlSyntax_3_proc_inst': ['C90_declaration_server', 'C90_declaration_client'],
})
NOTE.update({
 'auto1_Float64_5_shortest': 'survived the first run; the definition was rewritten for C100 and the edit no longer applies',
 'auto1_Float64_10_render_e': 'survives: an equivalent program, this branch (exponents 0 to 9) is never taken, encoding/json writes such numbers without exponent',
 'auto1_Any_9_marshal_any': 'survives: no claim is broken, only the text of a log line differs',
 'auto1_Frame_1_unmarshal_message': 'survives: no claim is broken, only the text of a log line differs',
 'auto1_Frame_9_frame_of': 'survives: no claim is broken, only the text of a log line differs',
 'auto1_ChargePoint_2_cpoint0': 'survives: an equivalent program, the number of the next channel is a fresh name',
 'auto2_CentralSystem_2_csys0': 'survives: an equivalent program, the number of the next channel is a fresh name',
 'auto2_JsonText_7_ends_solid': 'survives: a helper of the proofs, not of the model',
})
