(** GENERATED by tools/gengrammar.py from the text of /repo/httplint/syntax/*.py: do not edit.

    Each definition is the regular expression of one ABNF rule, after f-string
    substitution, as Python's re parser reads it with re.VERBOSE (whitespace
    and unescaped # comments removed).  re.IGNORECASE is applied at the use
    sites with [nocase]. *)
From Verif Require Import PyStr Regex.

(** syntax/rfc5234.py:13 *)
Definition rfc5234_ALPHA : re := cls [(65, 90); (97, 122)].
(** syntax/rfc5234.py:17 *)
Definition rfc5234_BIT : re := cls [(48, 48); (49, 49)].
(** syntax/rfc5234.py:26 *)
Definition rfc5234_CR : re := chr 13.
(** syntax/rfc5234.py:31 *)
Definition rfc5234_LF : re := chr 10.
(** syntax/rfc5234.py:36 *)
Definition rfc5234_CRLF : re := seqs [chr 13; chr 10].
(** syntax/rfc5234.py:41 *)
Definition rfc5234_CTL : re := cls [(0, 31); (127, 127)].
(** syntax/rfc5234.py:46 *)
Definition rfc5234_DIGIT : re := cls [(48, 57)].
(** syntax/rfc5234.py:51 *)
Definition rfc5234_DQUOTE : re := chr 34.
(** syntax/rfc5234.py:55 *)
Definition rfc5234_HEXDIG : re := cls [(48, 57); (65, 70); (97, 102)].
(** syntax/rfc5234.py:60 *)
Definition rfc5234_HTAB : re := chr 9.
(** syntax/rfc5234.py:65 *)
Definition rfc5234_OCTET : re := cls [(0, 255)].
(** syntax/rfc5234.py:69 *)
Definition rfc5234_SP : re := chr 32.
(** syntax/rfc5234.py:74 *)
Definition rfc5234_VCHAR : re := cls [(33, 126)].
(** syntax/rfc5234.py:79 *)
Definition rfc5234_WSP : re := cls [(32, 32); (9, 9)].
(** syntax/rfc5234.py:92 *)
Definition rfc5234_LWSP : re := Star (alts [rfc5234_WSP; seqs [rfc5234_CRLF; rfc5234_WSP]]).
(** syntax/rfc3986.py:19 *)
Definition rfc3986_pct_encoded : re := seqs [chr 37; rfc5234_HEXDIG; rfc5234_HEXDIG].
(** syntax/rfc3986.py:22 *)
Definition rfc3986_unreserved : re := cls [(65, 90); (97, 122); (48, 57); (45, 45); (46, 46); (95, 95); (126, 126)].
(** syntax/rfc3986.py:25 *)
Definition rfc3986_gen_delims : re := cls [(58, 58); (47, 47); (63, 63); (35, 35); (91, 91); (93, 93); (64, 64)].
(** syntax/rfc3986.py:29-30 *)
Definition rfc3986_sub_delims : re := cls [(33, 33); (36, 36); (38, 38); (39, 39); (40, 40); (41, 41); (42, 42); (43, 43); (44, 44); (59, 59); (61, 61)].
(** syntax/rfc3986.py:33 *)
Definition rfc3986_pchar : re := alts [rfc3986_unreserved; rfc3986_pct_encoded; rfc3986_sub_delims; chr 58; chr 64].
(** syntax/rfc3986.py:36 *)
Definition rfc3986_reserved : re := cls [(58, 58); (47, 47); (63, 63); (35, 35); (91, 91); (93, 93); (64, 64); (33, 33); (36, 36); (38, 38); (39, 39); (40, 40); (41, 41); (42, 42); (43, 43); (44, 44); (59, 59); (61, 61)].
(** syntax/rfc3986.py:42 *)
Definition rfc3986_scheme : re := seqs [rfc5234_ALPHA; Star (cls [(65, 90); (97, 122); (48, 57); (43, 43); (45, 45); (46, 46)])].
(** syntax/rfc3986.py:52-58 *)
Definition rfc3986_dec_octet : re := alts [rfc5234_DIGIT; seqs [cls [(49, 57)]; rfc5234_DIGIT]; seqs [chr 49; rep 2%nat rfc5234_DIGIT]; seqs [chr 50; cls [(48, 52)]; rfc5234_DIGIT]; seqs [lit "25"; cls [(48, 53)]]].
(** syntax/rfc3986.py:61 *)
Definition rfc3986_IPv4address : re := seqs [rfc3986_dec_octet; chr 46; rfc3986_dec_octet; chr 46; rfc3986_dec_octet; chr 46; rfc3986_dec_octet].
(** syntax/rfc3986.py:64 *)
Definition rfc3986_h16 : re := between 1%nat 4%nat rfc5234_HEXDIG.
(** syntax/rfc3986.py:67 *)
Definition rfc3986_ls32 : re := alts [seqs [rfc3986_h16; chr 58; rfc3986_h16]; rfc3986_IPv4address].
(** syntax/rfc3986.py:78-88 *)
Definition rfc3986_IPv6address : re := alts [seqs [rep 6%nat (seqs [rfc3986_h16; chr 58]); rfc3986_ls32]; seqs [lit "::"; rep 5%nat (seqs [rfc3986_h16; chr 58]); rfc3986_ls32]; seqs [rfc3986_h16; lit "::"; rep 4%nat (seqs [rfc3986_h16; chr 58]); rfc3986_ls32]; seqs [rfc3986_h16; chr 58; rfc3986_h16; lit "::"; rep 3%nat (seqs [rfc3986_h16; chr 58]); rfc3986_ls32]; seqs [rep 2%nat (seqs [rfc3986_h16; chr 58]); rfc3986_h16; lit "::"; rep 2%nat (seqs [rfc3986_h16; chr 58]); rfc3986_ls32]; seqs [rep 3%nat (seqs [rfc3986_h16; chr 58]); rfc3986_h16; lit "::"; rfc3986_h16; chr 58; rfc3986_ls32]; seqs [rep 4%nat (seqs [rfc3986_h16; chr 58]); rfc3986_h16; lit "::"; rfc3986_ls32]; seqs [rep 5%nat (seqs [rfc3986_h16; chr 58]); rfc3986_h16; lit "::"; rfc3986_h16]; seqs [rep 6%nat (seqs [rfc3986_h16; chr 58]); rfc3986_h16; lit "::"]].
(** syntax/rfc3986.py:91 *)
Definition rfc3986_IPvFuture : re := seqs [chr 118; Plus rfc5234_HEXDIG; chr 46; Plus (cls [(65, 90); (97, 122); (48, 57); (45, 45); (46, 46); (95, 95); (126, 126); (33, 33); (36, 36); (38, 38); (39, 39); (40, 40); (41, 41); (42, 42); (43, 43); (44, 44); (59, 59); (61, 61); (58, 58)])].
(** syntax/rfc3986.py:94 *)
Definition rfc3986_IP_literal : re := seqs [chr 91; alts [rfc3986_IPv6address; rfc3986_IPvFuture]; chr 93].
(** syntax/rfc3986.py:97 *)
Definition rfc3986_reg_name : re := Star (alts [rfc3986_unreserved; rfc3986_pct_encoded; rfc3986_sub_delims]).
(** syntax/rfc3986.py:100 *)
Definition rfc3986_userinfo : re := alts [rfc3986_unreserved; rfc3986_pct_encoded; rfc3986_sub_delims; chr 58].
(** syntax/rfc3986.py:103 *)
Definition rfc3986_host : re := alts [rfc3986_IP_literal; rfc3986_IPv4address; rfc3986_reg_name].
(** syntax/rfc3986.py:106 *)
Definition rfc3986_port : re := Star rfc5234_DIGIT.
(** syntax/rfc3986.py:109 *)
Definition rfc3986_authority : re := seqs [Opt (seqs [rfc3986_userinfo; chr 64]); rfc3986_host; Opt (seqs [chr 58; rfc3986_port])].
(** syntax/rfc3986.py:115 *)
Definition rfc3986_segment : re := Star rfc3986_pchar.
(** syntax/rfc3986.py:118 *)
Definition rfc3986_segment_nz : re := Plus rfc3986_pchar.
(** syntax/rfc3986.py:122 *)
Definition rfc3986_segment_nz_nc : re := Plus (alts [rfc3986_unreserved; rfc3986_pct_encoded; rfc3986_sub_delims; chr 64]).
(** syntax/rfc3986.py:125 *)
Definition rfc3986_path_abempty : re := Star (seqs [chr 47; rfc3986_segment]).
(** syntax/rfc3986.py:128 *)
Definition rfc3986_path_absolute : re := seqs [chr 47; Opt (seqs [rfc3986_segment_nz; rfc3986_path_abempty])].
(** syntax/rfc3986.py:131 *)
Definition rfc3986_path_noscheme : re := seqs [rfc3986_segment_nz_nc; rfc3986_path_abempty].
(** syntax/rfc3986.py:134 *)
Definition rfc3986_path_rootless : re := seqs [rfc3986_segment_nz; rfc3986_path_abempty].
(** syntax/rfc3986.py:137 *)
Definition rfc3986_path_empty : re := seqs [rfc3986_pchar; chr 48].
(** syntax/rfc3986.py:144-150 *)
Definition rfc3986_path : re := alts [rfc3986_path_abempty; rfc3986_path_absolute; rfc3986_path_noscheme; rfc3986_path_rootless; rfc3986_path_empty].
(** syntax/rfc3986.py:156 *)
Definition rfc3986_query : re := Star (alts [rfc3986_pchar; chr 47; chr 63]).
(** syntax/rfc3986.py:159 *)
Definition rfc3986_fragment : re := rfc3986_query.
(** syntax/rfc3986.py:168-173 *)
Definition rfc3986_hier_part : re := alts [seqs [lit "//"; rfc3986_authority; rfc3986_path_abempty]; rfc3986_path_absolute; rfc3986_path_rootless; rfc3986_path_empty].
(** syntax/rfc3986.py:179-184 *)
Definition rfc3986_relative_part : re := alts [seqs [lit "//"; rfc3986_authority; rfc3986_path_abempty]; rfc3986_path_absolute; rfc3986_path_noscheme; rfc3986_path_empty].
(** syntax/rfc3986.py:187 *)
Definition rfc3986_relative_ref : re := seqs [rfc3986_relative_part; Opt (seqs [chr 63; rfc3986_query]); Opt (seqs [chr 35; rfc3986_query])].
(** syntax/rfc3986.py:190 *)
Definition rfc3986_URI : re := seqs [rfc3986_scheme; chr 58; rfc3986_hier_part; Opt (seqs [chr 63; rfc3986_query]); Opt (seqs [chr 35; rfc3986_query])].
(** syntax/rfc3986.py:193 *)
Definition rfc3986_URI_reference : re := alts [rfc3986_URI; rfc3986_relative_ref].
(** syntax/rfc3986.py:196 *)
Definition rfc3986_absolute_URI : re := seqs [rfc3986_scheme; chr 58; rfc3986_hier_part; Opt (seqs [chr 63; rfc3986_query])].
(** syntax/rfc5322.py:11 *)
Definition rfc5322_qtext : re := cls [(33, 33); (35, 91); (93, 126)].
(** syntax/rfc5322.py:15 *)
Definition rfc5322_quoted_pair : re := seqs [chr 92; cls [(33, 126); (32, 32); (9, 9)]].
(** syntax/rfc5322.py:19 *)
Definition rfc5322_qcontent : re := alts [rfc5322_qtext; rfc5322_quoted_pair].
(** syntax/rfc5322.py:26 *)
Definition rfc5322_ctext : re := cls [(33, 39); (42, 91); (93, 93); (126, 126)].
(** syntax/rfc5322.py:30 *)
Definition rfc5322_ccontent : re := alts [rfc5322_ctext; rfc5322_quoted_pair; seqs []].
(** syntax/rfc5322.py:34 *)
Definition rfc5322_FWS : re := seqs [Opt (seqs [Star rfc5234_WSP; rfc5234_CRLF]); Plus rfc5234_WSP].
(** syntax/rfc5322.py:38 *)
Definition rfc5322_comment : re := seqs [chr 40; Star (seqs [Opt rfc5322_FWS; rfc5322_ccontent]); Opt rfc5322_FWS; chr 41].
(** syntax/rfc5322.py:42 *)
Definition rfc5322_CFWS : re := alts [Plus (seqs [Opt rfc5322_FWS; rfc5322_comment; Opt rfc5322_FWS]); rfc5322_FWS].
(** syntax/rfc5322.py:48 *)
Definition rfc5322_quoted_string : re := seqs [Opt rfc5322_CFWS; chr 34; Star (seqs [Opt rfc5322_FWS; rfc5322_qcontent]); chr 34; Opt rfc5322_CFWS].
(** syntax/rfc5322.py:62 *)
Definition rfc5322_atext : re := cls [(65, 90); (97, 122); (48, 57); (33, 33); (35, 35); (36, 36); (37, 37); (38, 38); (39, 39); (42, 42); (43, 43); (45, 45); (47, 47); (61, 61); (63, 63); (94, 94); (95, 95); (96, 96); (123, 123); (124, 124); (125, 125); (126, 126)].
(** syntax/rfc5322.py:66 *)
Definition rfc5322_atom : re := seqs [Opt rfc5322_CFWS; Plus rfc5322_atext; Opt rfc5322_CFWS].
(** syntax/rfc5322.py:70 *)
Definition rfc5322_word : re := alts [rfc5322_atom; rfc5322_quoted_string].
(** syntax/rfc5322.py:74 *)
Definition rfc5322_phrase : re := alts [Plus rfc5322_word; lit "obs_phrase"].
(** syntax/rfc5322.py:78 *)
Definition rfc5322_display_name : re := rfc5322_phrase.
(** syntax/rfc5322.py:82 *)
Definition rfc5322_dot_atom_text : re := seqs [Plus rfc5322_atext; Star (seqs [chr 46; Plus rfc5322_atext])].
(** syntax/rfc5322.py:86 *)
Definition rfc5322_dot_atom : re := seqs [Opt rfc5322_CFWS; rfc5322_dot_atom_text; Opt rfc5322_CFWS].
(** syntax/rfc5322.py:90 *)
Definition rfc5322_local_part : re := alts [rfc5322_dot_atom; rfc5322_quoted_string].
(** syntax/rfc5322.py:96 *)
Definition rfc5322_dtext : re := cls [(33, 90); (94, 126)].
(** syntax/rfc5322.py:100 *)
Definition rfc5322_domain_literal : re := seqs [Opt rfc5322_CFWS; chr 91; Star (seqs [Opt rfc5322_FWS; rfc5322_dtext]); Opt rfc5322_FWS; chr 93; Opt rfc5322_CFWS].
(** syntax/rfc5322.py:104 *)
Definition rfc5322_domain : re := alts [rfc5322_dot_atom; rfc5322_domain_literal].
(** syntax/rfc5322.py:108 *)
Definition rfc5322_addr_spec : re := seqs [rfc5322_local_part; chr 64; rfc5322_domain].
(** syntax/rfc5322.py:113 *)
Definition rfc5322_angle_addr : re := seqs [Opt rfc5322_CFWS; chr 60; rfc5322_addr_spec; chr 62; Opt rfc5322_CFWS].
(** syntax/rfc5322.py:117 *)
Definition rfc5322_name_addr : re := seqs [Opt rfc5322_phrase; rfc5322_angle_addr].
(** syntax/rfc5322.py:121 *)
Definition rfc5322_mailbox : re := alts [rfc5322_name_addr; rfc5322_addr_spec].
(** syntax/rfc5646.py:16 *)
Definition rfc5646_alphanum : re := seqs [chr 123; alts [lit "ALPHA}"; lit "DIGIT}"]].
(** syntax/rfc5646.py:36-54 *)
Definition rfc5646_irregular : re := alts [lit "en-GB-oed"; lit "i-ami"; lit "i-bnn"; lit "i-default"; lit "i-enochian"; lit "i-hak"; lit "i-klingon"; lit "i-lux"; lit "i-mingo"; lit "i-navajo"; lit "i-pwn"; lit "i-tao"; lit "i-tay"; lit "i-tsu"; lit "sgn-BE-FR"; lit "sgn-BE-NL"; lit "sgn-CH-DE"].
(** syntax/rfc5646.py:66-76 *)
Definition rfc5646_regular : re := alts [lit "art-lojban"; lit "cel-gaulish"; lit "no-bok"; lit "no-nyn"; lit "zh-guoyu"; lit "zh-hakka"; lit "zh-min"; lit "zh-min-nan"; lit "zh-xiang"].
(** syntax/rfc5646.py:81 *)
Definition rfc5646_grandfathered : re := alts [lit "en-GB-oed"; lit "i-ami"; lit "i-bnn"; lit "i-default"; lit "i-enochian"; lit "i-hak"; lit "i-klingon"; lit "i-lux"; lit "i-mingo"; lit "i-navajo"; lit "i-pwn"; lit "i-tao"; lit "i-tay"; lit "i-tsu"; lit "sgn-BE-FR"; lit "sgn-BE-NL"; lit "sgn-CH-DE"; lit "art-lojban"; lit "cel-gaulish"; lit "no-bok"; lit "no-nyn"; lit "zh-guoyu"; lit "zh-hakka"; lit "zh-min"; lit "zh-min-nan"; lit "zh-xiang"].
(** syntax/rfc5646.py:86 *)
Definition rfc5646_extlang : re := seqs [rep 3%nat rfc5234_ALPHA; upto 2%nat (seqs [chr 45; rep 3%nat rfc5234_ALPHA])].
(** syntax/rfc5646.py:94-99 *)
Definition rfc5646_language : re := alts [seqs [between 2%nat 3%nat rfc5234_ALPHA; Opt (seqs [chr 45; rfc5646_extlang])]; rep 4%nat rfc5234_ALPHA; between 5%nat 8%nat rfc5234_ALPHA].
(** syntax/rfc5646.py:103 *)
Definition rfc5646_script : re := rep 4%nat rfc5234_ALPHA.
(** syntax/rfc5646.py:108 *)
Definition rfc5646_region : re := alts [rep 2%nat rfc5234_ALPHA; rep 3%nat rfc5234_DIGIT].
(** syntax/rfc5646.py:113 *)
Definition rfc5646_variant : re := alts [between 5%nat 8%nat rfc5646_alphanum; seqs [rfc5234_DIGIT; rep 3%nat rfc5646_alphanum]].
(** syntax/rfc5646.py:121 *)
Definition rfc5646_singleton : re := cls [(48, 57); (65, 87); (89, 90); (97, 119); (121, 122)].
(** syntax/rfc5646.py:125 *)
Definition rfc5646_extension : re := seqs [rfc5646_singleton; Plus (seqs [chr 45; between 2%nat 8%nat rfc5646_alphanum])].
(** syntax/rfc5646.py:129 *)
Definition rfc5646_privateuse : re := seqs [chr 120; Plus (seqs [chr 45; between 1%nat 8%nat rfc5646_alphanum])].
(** syntax/rfc5646.py:138-145 *)
Definition rfc5646_langtag : re := seqs [rfc5646_language; Opt (seqs [chr 45; rfc5646_script]); Opt (seqs [chr 45; rfc5646_region]); Star (seqs [chr 45; rfc5646_variant]); Star (seqs [chr 45; rfc5646_extension]); Opt (seqs [lit "-x"; Plus (seqs [chr 45; between 1%nat 8%nat rfc5646_alphanum])])].
(** syntax/rfc5646.py:151 *)
Definition rfc5646_Language_Tag : re := alts [rfc5646_langtag; rfc5646_privateuse; rfc5646_grandfathered].
(** syntax/rfc5987.py:23 *)
Definition rfc5987_language : re := rfc5646_Language_Tag.
(** syntax/rfc5987.py:28 *)
Definition rfc5987_pct_encoded : re := rfc3986_pct_encoded.
(** syntax/rfc5987.py:35-39 *)
Definition rfc5987_attr_char : re := alts [rfc5234_ALPHA; rfc5234_DIGIT; chr 33; seqs []; chr 94; chr 95; chr 96; chr 124; chr 126].
(** syntax/rfc5987.py:43 *)
Definition rfc5987_value_chars : re := Star (alts [rfc3986_pct_encoded; rfc5987_attr_char]).
(** syntax/rfc5987.py:53-58 *)
Definition rfc5987_mime_charsetc : re := alts [rfc5234_ALPHA; rfc5234_DIGIT; chr 33; seqs []; chr 43; chr 45; chr 94; chr 95; chr 96; chr 123; chr 125; chr 126].
(** syntax/rfc5987.py:62 *)
Definition rfc5987_mime_charset : re := Plus rfc5987_mime_charsetc.
(** syntax/rfc5987.py:66 *)
Definition rfc5987_charset : re := alts [lit "UTF-8"; rfc5987_mime_charset].
(** syntax/rfc5987.py:72 *)
Definition rfc5987_ext_value : re := seqs [rfc5987_charset; chr 39; Opt rfc5646_Language_Tag; chr 39; rfc5987_value_chars].
(** syntax/rfc6838.py:17 *)
Definition rfc6838_restricted_name_first : re := cls [(65, 90); (97, 122); (48, 57)].
(** syntax/rfc6838.py:26 *)
Definition rfc6838_restricted_name_chars : re := cls [(65, 90); (97, 122); (48, 57); (33, 33); (35, 35); (36, 36); (38, 38); (45, 45); (94, 94); (95, 95); (46, 46); (43, 43)].
(** syntax/rfc6838.py:30 *)
Definition rfc6838_restricted_name : re := seqs [rfc6838_restricted_name_first; upto 126%nat rfc6838_restricted_name_chars].
(** syntax/rfc6838.py:34 *)
Definition rfc6838_type_name : re := rfc6838_restricted_name.
(** syntax/rfc6838.py:38 *)
Definition rfc6838_subtype_name : re := rfc6838_restricted_name.
(** syntax/rfc9110.py:38 *)
Definition rfc9110_OWS : re := Star rfc5234_WSP.
(** syntax/rfc9110.py:42 *)
Definition rfc9110_BWS : re := rfc9110_OWS.
(** syntax/rfc9110.py:46 *)
Definition rfc9110_RWS : re := Plus rfc5234_WSP.
(** syntax/rfc9110.py:50 *)
Definition rfc9110_obs_text : re := cls [(128, 255)].
(** syntax/rfc9110.py:55-57 *)
Definition rfc9110_tchar : re := cls [(33, 33); (35, 35); (36, 36); (37, 37); (38, 38); (39, 39); (42, 42); (43, 43); (45, 45); (46, 46); (94, 94); (95, 95); (96, 96); (124, 124); (126, 126); (48, 57); (65, 90); (97, 122)].
(** syntax/rfc9110.py:61 *)
Definition rfc9110_token : re := Plus rfc9110_tchar.
(** syntax/rfc9110.py:67 *)
Definition rfc9110_qdtext : re := cls [(9, 9); (32, 32); (33, 33); (35, 91); (93, 126); (128, 255)].
(** syntax/rfc9110.py:71 *)
Definition rfc9110_quoted_pair : re := seqs [chr 92; cls [(9, 9); (32, 32); (33, 126); (128, 255)]].
(** syntax/rfc9110.py:75 *)
Definition rfc9110_quoted_string : re := seqs [chr 34; Star (alts [rfc9110_qdtext; rfc9110_quoted_pair]); chr 34].
(** syntax/rfc9110.py:112 *)
Definition rfc9110_parameter_name : re := rfc9110_token.
(** syntax/rfc9110.py:116 *)
Definition rfc9110_parameter_value : re := alts [rfc9110_token; rfc9110_quoted_string].
(** syntax/rfc9110.py:120 *)
Definition rfc9110_parameter : re := seqs [rfc9110_token; chr 61; rfc9110_parameter_value].
(** syntax/rfc9110.py:124 *)
Definition rfc9110_parameters : re := Star (seqs [rfc9110_OWS; chr 59; rfc9110_OWS; Opt rfc9110_parameter]).
(** syntax/rfc9110.py:128 *)
Definition rfc9110_qvalue : re := alts [seqs [chr 48; Opt (seqs [chr 46; upto 3%nat rfc5234_DIGIT])]; seqs [chr 49; Opt (seqs [chr 46; upto 3%nat (chr 48)])]].
(** syntax/rfc9110.py:132 *)
Definition rfc9110_weight : re := seqs [rfc9110_OWS; chr 59; rfc9110_OWS; lit "q="; rfc9110_qvalue].
(** syntax/rfc9110.py:136 *)
Definition rfc9110__type : re := rfc9110_token.
(** syntax/rfc9110.py:140 *)
Definition rfc9110_subtype : re := rfc9110_token.
(** syntax/rfc9110.py:144 *)
Definition rfc9110_media_type : re := seqs [rfc9110_token; chr 47; rfc9110_token; rfc9110_parameters].
(** syntax/rfc9110.py:148 *)
Definition rfc9110_media_range : re := seqs [alts [lit "*/*"; seqs [rfc9110_token; lit "/*"]; seqs [rfc9110_token; chr 47; rfc9110_token]]; rfc9110_parameters].
(** syntax/rfc9110.py:152 (list element) *)
Definition rfc9110_Accept_element : re := seqs [rfc9110_media_range; Opt rfc9110_weight].
(** syntax/rfc9110.py:152 *)
Definition rfc9110_Accept : re := Opt (seqs [rfc9110_Accept_element; Star (seqs [rfc9110_OWS; chr 44; rfc9110_OWS; rfc9110_Accept_element])]).
(** syntax/rfc9110.py:157 (list element) *)
Definition rfc9110_Accept_Charset_element : re := seqs [alts [rfc9110_token; chr 42]; Opt rfc9110_weight].
(** syntax/rfc9110.py:157 *)
Definition rfc9110_Accept_Charset : re := Opt (seqs [rfc9110_Accept_Charset_element; Star (seqs [rfc9110_OWS; chr 44; rfc9110_OWS; rfc9110_Accept_Charset_element])]).
(** syntax/rfc9110.py:161 *)
Definition rfc9110_content_coding : re := rfc9110_token.
(** syntax/rfc9110.py:165 *)
Definition rfc9110_codings : re := alts [rfc9110_token; lit "identity"; chr 42].
(** syntax/rfc9110.py:169 (list element) *)
Definition rfc9110_Accept_Encoding_element : re := seqs [rfc9110_codings; Opt rfc9110_weight].
(** syntax/rfc9110.py:169 *)
Definition rfc9110_Accept_Encoding : re := Opt (seqs [rfc9110_Accept_Encoding_element; Star (seqs [rfc9110_OWS; chr 44; rfc9110_OWS; rfc9110_Accept_Encoding_element])]).
(** syntax/rfc9110.py:173 *)
Definition rfc9110_language_range : re := alts [seqs [between 1%nat 8%nat rfc5234_ALPHA; Star (seqs [chr 45; between 1%nat 8%nat rfc6838_restricted_name_first])]; chr 42].
(** syntax/rfc9110.py:178 (list element) *)
Definition rfc9110_Accept_Language_element : re := seqs [rfc9110_language_range; Opt rfc9110_weight].
(** syntax/rfc9110.py:178 *)
Definition rfc9110_Accept_Language : re := Opt (seqs [rfc9110_Accept_Language_element; Star (seqs [rfc9110_OWS; chr 44; rfc9110_OWS; rfc9110_Accept_Language_element])]).
(** syntax/rfc9110.py:182 *)
Definition rfc9110_range_unit : re := rfc9110_token.
(** syntax/rfc9110.py:186 (list element) *)
Definition rfc9110_acceptable_ranges_element : re := rfc9110_token.
(** syntax/rfc9110.py:186 *)
Definition rfc9110_acceptable_ranges : re := seqs [rfc9110_token; Star (seqs [rfc9110_OWS; chr 44; rfc9110_OWS; rfc9110_token])].
(** syntax/rfc9110.py:190 (list element) *)
Definition rfc9110_Accept_Ranges_element : re := rfc9110_token.
(** syntax/rfc9110.py:190 *)
Definition rfc9110_Accept_Ranges : re := rfc9110_acceptable_ranges.
(** syntax/rfc9110.py:194 *)
Definition rfc9110_method : re := rfc9110_token.
(** syntax/rfc9110.py:198 (list element) *)
Definition rfc9110_Allow_element : re := rfc9110_token.
(** syntax/rfc9110.py:198 *)
Definition rfc9110_Allow : re := Opt rfc9110_acceptable_ranges.
(** syntax/rfc9110.py:202 *)
Definition rfc9110_auth_scheme : re := rfc9110_token.
(** syntax/rfc9110.py:206 *)
Definition rfc9110_auth_param : re := seqs [rfc9110_token; rfc9110_OWS; chr 61; rfc9110_OWS; rfc9110_parameter_value].
(** syntax/rfc9110.py:210 (list element) *)
Definition rfc9110_Authentication_Info_element : re := rfc9110_auth_param.
(** syntax/rfc9110.py:210 *)
Definition rfc9110_Authentication_Info : re := Opt (seqs [rfc9110_auth_param; Star (seqs [rfc9110_OWS; chr 44; rfc9110_OWS; rfc9110_auth_param])]).
(** syntax/rfc9110.py:214 *)
Definition rfc9110_token68 : re := seqs [Plus (cls [(65, 90); (97, 122); (48, 57); (45, 45); (46, 46); (95, 95); (126, 126); (43, 43); (47, 47)]); Star (chr 61)].
(** syntax/rfc9110.py:218-227 *)
Definition rfc9110_credentials : re := seqs [rfc9110_token; Opt (seqs [Plus (chr 32); alts [rfc9110_token68; Opt (seqs [alts [chr 44; rfc9110_auth_param]; Star (seqs [rfc9110_OWS; chr 44; Opt (seqs [rfc9110_OWS; rfc9110_auth_param])])])]])].
(** syntax/rfc9110.py:231 *)
Definition rfc9110_Authorization : re := rfc9110_credentials.
(** syntax/rfc9110.py:235 *)
Definition rfc9110_connection_option : re := rfc9110_token.
(** syntax/rfc9110.py:239 (list element) *)
Definition rfc9110_Connection_element : re := rfc9110_token.
(** syntax/rfc9110.py:239 *)
Definition rfc9110_Connection : re := rfc9110_Allow.
(** syntax/rfc9110.py:243 (list element) *)
Definition rfc9110_Content_Encoding_element : re := rfc9110_token.
(** syntax/rfc9110.py:243 *)
Definition rfc9110_Content_Encoding : re := rfc9110_Allow.
(** syntax/rfc9110.py:247 *)
Definition rfc9110_language_tag : re := rfc5646_Language_Tag.
(** syntax/rfc9110.py:251 (list element) *)
Definition rfc9110_Content_Language_element : re := rfc5646_Language_Tag.
(** syntax/rfc9110.py:251 *)
Definition rfc9110_Content_Language : re := Opt (seqs [rfc5646_Language_Tag; Star (seqs [rfc9110_OWS; chr 44; rfc9110_OWS; rfc5646_Language_Tag])]).
(** syntax/rfc9110.py:255 *)
Definition rfc9110_Content_Length : re := Plus rfc5234_DIGIT.
(** syntax/rfc9110.py:265 *)
Definition rfc9110_partial_URI : re := seqs [rfc3986_relative_part; Opt rfc3986_query].
(** syntax/rfc9110.py:269 *)
Definition rfc9110_Content_Location : re := alts [rfc3986_absolute_URI; rfc9110_partial_URI].
(** syntax/rfc9110.py:273 *)
Definition rfc9110_first_pos : re := rfc9110_Content_Length.
(** syntax/rfc9110.py:277 *)
Definition rfc9110_last_pos : re := rfc9110_Content_Length.
(** syntax/rfc9110.py:281 *)
Definition rfc9110_incl_range : re := seqs [rfc9110_Content_Length; chr 45; rfc9110_Content_Length].
(** syntax/rfc9110.py:285 *)
Definition rfc9110_complete_length : re := rfc9110_Content_Length.
(** syntax/rfc9110.py:289 *)
Definition rfc9110_range_resp : re := seqs [rfc9110_incl_range; chr 47; alts [rfc9110_Content_Length; chr 42]].
(** syntax/rfc9110.py:293 *)
Definition rfc9110_unsatisfied_range : re := seqs [lit "*/"; rfc9110_Content_Length].
(** syntax/rfc9110.py:297 *)
Definition rfc9110_Content_Range : re := seqs [rfc9110_token; chr 32; alts [rfc9110_range_resp; rfc9110_unsatisfied_range]].
(** syntax/rfc9110.py:301 *)
Definition rfc9110_Content_Type : re := rfc9110_media_type.
(** syntax/rfc9110.py:305 *)
Definition rfc9110_day : re := seqs [rfc5234_DIGIT; rfc5234_DIGIT].
(** syntax/rfc9110.py:315 *)
Definition rfc9110_day_name : re := alts [lit "Mon"; lit "Tue"; lit "Wed"; lit "Thu"; lit "Fri"; lit "Sat"; lit "Sun"].
(** syntax/rfc9110.py:330 *)
Definition rfc9110_month : re := alts [lit "Jan"; lit "Feb"; lit "Mar"; lit "Apr"; lit "May"; lit "Jun"; lit "Jul"; lit "Aug"; lit "Sep"; lit "Oct"; lit "Nov"; lit "Dec"].
(** syntax/rfc9110.py:334 *)
Definition rfc9110_year : re := rep 4%nat rfc5234_DIGIT.
(** syntax/rfc9110.py:338 *)
Definition rfc9110_date1 : re := seqs [rfc9110_day; chr 32; rfc9110_month; chr 32; rfc9110_year].
(** syntax/rfc9110.py:342 *)
Definition rfc9110_hour : re := rfc9110_day.
(** syntax/rfc9110.py:346 *)
Definition rfc9110_minute : re := rfc9110_day.
(** syntax/rfc9110.py:350 *)
Definition rfc9110_second : re := rfc9110_day.
(** syntax/rfc9110.py:354 *)
Definition rfc9110_time_of_day : re := seqs [rfc9110_day; chr 58; rfc9110_day; chr 58; rfc9110_day].
(** syntax/rfc9110.py:358 *)
Definition rfc9110_GMT : re := lit "GMT".
(** syntax/rfc9110.py:362 *)
Definition rfc9110_IMF_fixdate : re := seqs [rfc9110_day_name; chr 44; chr 32; rfc9110_date1; chr 32; rfc9110_time_of_day; chr 32; rfc9110_GMT].
(** syntax/rfc9110.py:372 *)
Definition rfc9110_day_name_l : re := alts [lit "Monday"; lit "Tuesday"; lit "Wednesday"; lit "Thursday"; lit "Friday"; lit "Saturday"; lit "Sunday"].
(** syntax/rfc9110.py:376 *)
Definition rfc9110_date2 : re := seqs [rfc9110_day; chr 45; rfc9110_month; chr 45; rep 2%nat rfc5234_DIGIT].
(** syntax/rfc9110.py:380 *)
Definition rfc9110_rfc850_date : re := seqs [rfc9110_day_name_l; chr 44; chr 32; rfc9110_date2; chr 32; rfc9110_time_of_day; chr 32; rfc9110_GMT].
(** syntax/rfc9110.py:384 *)
Definition rfc9110_date3 : re := seqs [rfc9110_month; chr 32; alts [rep 2%nat rfc5234_DIGIT; seqs [chr 32; rfc5234_DIGIT]]].
(** syntax/rfc9110.py:388 *)
Definition rfc9110_asctime_date : re := seqs [rfc9110_day_name; chr 32; rfc9110_date3; chr 32; rfc9110_time_of_day; chr 32; rfc9110_year].
(** syntax/rfc9110.py:392 *)
Definition rfc9110_obs_date : re := alts [rfc9110_rfc850_date; rfc9110_asctime_date].
(** syntax/rfc9110.py:396 *)
Definition rfc9110_HTTP_date : re := alts [rfc9110_IMF_fixdate; rfc9110_obs_date].
(** syntax/rfc9110.py:400 *)
Definition rfc9110_Date : re := rfc9110_HTTP_date.
(** syntax/rfc9110.py:404 *)
Definition rfc9110_weak : re := lit "W/".
(** syntax/rfc9110.py:408 *)
Definition rfc9110_etagc : re := cls [(33, 33); (35, 126); (128, 255)].
(** syntax/rfc9110.py:412 *)
Definition rfc9110_opaque_tag : re := seqs [chr 34; Star rfc9110_etagc; chr 34].
(** syntax/rfc9110.py:416 *)
Definition rfc9110_entity_tag : re := seqs [Opt rfc9110_weak; rfc9110_opaque_tag].
(** syntax/rfc9110.py:420 *)
Definition rfc9110_ETag : re := rfc9110_entity_tag.
(** syntax/rfc9110.py:424 *)
Definition rfc9110_expectation : re := seqs [rfc9110_token; Opt (seqs [chr 61; rfc9110_parameter_value; rfc9110_parameters])].
(** syntax/rfc9110.py:428 (list element) *)
Definition rfc9110_Expect_element : re := rfc9110_expectation.
(** syntax/rfc9110.py:428 *)
Definition rfc9110_Expect : re := Opt (seqs [rfc9110_expectation; Star (seqs [rfc9110_OWS; chr 44; rfc9110_OWS; rfc9110_expectation])]).
(** syntax/rfc9110.py:434 *)
Definition rfc9110_From : re := rfc5322_mailbox.
(** syntax/rfc9110.py:440 *)
Definition rfc9110_Host : re := seqs [rfc3986_host; Opt (seqs [chr 58; rfc3986_port])].
(** syntax/rfc9110.py:444 *)
Definition rfc9110_If_Match : re := alts [chr 42; Opt (seqs [rfc9110_entity_tag; Star (seqs [rfc9110_OWS; chr 44; rfc9110_OWS; rfc9110_entity_tag])])].
(** syntax/rfc9110.py:448 *)
Definition rfc9110_If_Modified_Since : re := rfc9110_HTTP_date.
(** syntax/rfc9110.py:452 *)
Definition rfc9110_If_None_Match : re := rfc9110_If_Match.
(** syntax/rfc9110.py:456 *)
Definition rfc9110_If_Range : re := alts [rfc9110_entity_tag; rfc9110_HTTP_date].
(** syntax/rfc9110.py:460 *)
Definition rfc9110_If_Unmodified_Since : re := rfc9110_HTTP_date.
(** syntax/rfc9110.py:464 *)
Definition rfc9110_Last_Modified : re := rfc9110_HTTP_date.
(** syntax/rfc9110.py:470 *)
Definition rfc9110_Location : re := rfc3986_URI_reference.
(** syntax/rfc9110.py:474 *)
Definition rfc9110_Max_Forwards : re := rfc9110_Content_Length.
(** syntax/rfc9110.py:478-487 *)
Definition rfc9110_challenge : re := rfc9110_credentials.
(** syntax/rfc9110.py:491 (list element) *)
Definition rfc9110_Proxy_Authenticate_element : re := rfc9110_credentials.
(** syntax/rfc9110.py:491 *)
Definition rfc9110_Proxy_Authenticate : re := Opt (seqs [rfc9110_credentials; Star (seqs [rfc9110_OWS; chr 44; rfc9110_OWS; rfc9110_credentials])]).
(** syntax/rfc9110.py:495 (list element) *)
Definition rfc9110_Proxy_Authentication_Info_element : re := rfc9110_auth_param.
(** syntax/rfc9110.py:495 *)
Definition rfc9110_Proxy_Authentication_Info : re := rfc9110_Authentication_Info.
(** syntax/rfc9110.py:499 *)
Definition rfc9110_Proxy_Authorization : re := rfc9110_credentials.
(** syntax/rfc9110.py:503 *)
Definition rfc9110_int_range : re := rfc9110_incl_range.
(** syntax/rfc9110.py:507 *)
Definition rfc9110_suffix_length : re := rfc9110_Content_Length.
(** syntax/rfc9110.py:511 *)
Definition rfc9110_suffix_range : re := seqs [chr 45; rfc9110_Content_Length].
(** syntax/rfc9110.py:517 *)
Definition rfc9110_other_range : re := Plus (cls [(33, 43); (45, 126)]).
(** syntax/rfc9110.py:521 *)
Definition rfc9110_range_spec : re := alts [rfc9110_incl_range; rfc9110_suffix_range; rfc9110_other_range].
(** syntax/rfc9110.py:525 (list element) *)
Definition rfc9110_range_set_element : re := rfc9110_range_spec.
(** syntax/rfc9110.py:525 *)
Definition rfc9110_range_set : re := seqs [rfc9110_range_spec; Star (seqs [rfc9110_OWS; chr 44; rfc9110_OWS; rfc9110_range_spec])].
(** syntax/rfc9110.py:529 *)
Definition rfc9110_ranges_specifier : re := seqs [rfc9110_token; chr 61; rfc9110_range_set].
(** syntax/rfc9110.py:533 *)
Definition rfc9110_Range : re := rfc9110_ranges_specifier.
(** syntax/rfc9110.py:537 *)
Definition rfc9110_Referer : re := rfc9110_Content_Location.
(** syntax/rfc9110.py:541 *)
Definition rfc9110_delay_seconds : re := rfc9110_Content_Length.
(** syntax/rfc9110.py:545 *)
Definition rfc9110_Retry_After : re := alts [rfc9110_HTTP_date; rfc9110_Content_Length].
(** syntax/rfc9110.py:549 *)
Definition rfc9110_product_version : re := rfc9110_token.
(** syntax/rfc9110.py:553 *)
Definition rfc9110_product : re := seqs [rfc9110_token; Opt (seqs [chr 47; rfc9110_token])].
(** syntax/rfc9110.py:560 *)
Definition rfc9110_ctext : re := cls [(9, 9); (32, 32); (33, 39); (42, 91); (93, 126); (128, 255)].
(** syntax/rfc9110.py:564 *)
Definition rfc9110_comment : re := seqs [chr 40; Star (alts [rfc9110_ctext; rfc9110_quoted_pair]); chr 41].
(** syntax/rfc9110.py:568 *)
Definition rfc9110_Server : re := seqs [rfc9110_product; Star (seqs [rfc9110_RWS; alts [rfc9110_product; rfc9110_comment]])].
(** syntax/rfc9110.py:572 *)
Definition rfc9110_transfer_parameter : re := rfc9110_auth_param.
(** syntax/rfc9110.py:576 *)
Definition rfc9110_transfer_coding : re := seqs [rfc9110_token; Star (seqs [rfc9110_OWS; chr 59; rfc9110_OWS; rfc9110_auth_param])].
(** syntax/rfc9110.py:580 *)
Definition rfc9110_t_codings : re := alts [lit "trailers"; seqs [rfc9110_transfer_coding; Opt rfc9110_weight]].
(** syntax/rfc9110.py:584 (list element) *)
Definition rfc9110_TE_element : re := rfc9110_t_codings.
(** syntax/rfc9110.py:584 *)
Definition rfc9110_TE : re := Opt (seqs [rfc9110_t_codings; Star (seqs [rfc9110_OWS; chr 44; rfc9110_OWS; rfc9110_t_codings])]).
(** syntax/rfc9110.py:588 *)
Definition rfc9110_field_name : re := rfc9110_token.
(** syntax/rfc9110.py:592 (list element) *)
Definition rfc9110_Trailer_element : re := rfc9110_token.
(** syntax/rfc9110.py:592 *)
Definition rfc9110_Trailer : re := rfc9110_Allow.
(** syntax/rfc9110.py:596 *)
Definition rfc9110_protocol_name : re := rfc9110_token.
(** syntax/rfc9110.py:600 *)
Definition rfc9110_protocol_version : re := rfc9110_token.
(** syntax/rfc9110.py:604 *)
Definition rfc9110_protocol : re := rfc9110_product.
(** syntax/rfc9110.py:608 (list element) *)
Definition rfc9110_Upgrade_element : re := rfc9110_product.
(** syntax/rfc9110.py:608 *)
Definition rfc9110_Upgrade : re := Opt (seqs [rfc9110_product; Star (seqs [rfc9110_OWS; chr 44; rfc9110_OWS; rfc9110_product])]).
(** syntax/rfc9110.py:612 *)
Definition rfc9110_User_Agent : re := rfc9110_Server.
(** syntax/rfc9110.py:616 (list element) *)
Definition rfc9110_Vary_element : re := alts [chr 42; rfc9110_token].
(** syntax/rfc9110.py:616 *)
Definition rfc9110_Vary : re := Opt (seqs [rfc9110_Vary_element; Star (seqs [rfc9110_OWS; chr 44; rfc9110_OWS; rfc9110_Vary_element])]).
(** syntax/rfc9110.py:620 *)
Definition rfc9110_pseudonym : re := rfc9110_token.
(** syntax/rfc9110.py:624 *)
Definition rfc9110_received_protocol : re := seqs [Opt (seqs [rfc9110_token; chr 47]); rfc9110_token].
(** syntax/rfc9110.py:628 *)
Definition rfc9110_received_by : re := alts [rfc9110_Host; rfc9110_token].
(** syntax/rfc9110.py:633 (list element) *)
Definition rfc9110_Via_element : re := seqs [rfc9110_received_protocol; rfc9110_RWS; rfc9110_received_by; Opt (seqs [rfc9110_RWS; rfc9110_comment])].
(** syntax/rfc9110.py:633 *)
Definition rfc9110_Via : re := Opt (seqs [rfc9110_Via_element; Star (seqs [rfc9110_OWS; chr 44; rfc9110_OWS; rfc9110_Via_element])]).
(** syntax/rfc9110.py:637 (list element) *)
Definition rfc9110_WWW_Authenticate_element : re := rfc9110_credentials.
(** syntax/rfc9110.py:637 *)
Definition rfc9110_WWW_Authenticate : re := rfc9110_Proxy_Authenticate.
(** syntax/rfc9110.py:641 *)
Definition rfc9110_absolute_path : re := Plus (seqs [chr 47; rfc3986_segment]).
(** syntax/rfc9110.py:647 *)
Definition rfc9110_field_vchar : re := cls [(33, 126); (128, 255)].
(** syntax/rfc9110.py:651 *)
Definition rfc9110_field_content : re := seqs [rfc9110_field_vchar; Opt (seqs [rfc9110_RWS; rfc9110_field_vchar])].
(** syntax/rfc9110.py:655 *)
Definition rfc9110_field_value : re := Star rfc9110_field_content.
(** syntax/rfc9110.py:659 *)
Definition rfc9110_http_URI : re := seqs [lit "http://"; rfc3986_authority; rfc3986_path_abempty; Opt (seqs [chr 63; rfc3986_query])].
(** syntax/rfc9110.py:663 *)
Definition rfc9110_https_URI : re := seqs [lit "https://"; rfc3986_authority; rfc3986_path_abempty; Opt (seqs [chr 63; rfc3986_query])].
(** syntax/rfc8288.py:21 *)
Definition rfc8288_link_param : re := seqs [rfc9110_token; Opt (seqs [chr 61; rfc9110_parameter_value])].
(** syntax/rfc8288.py:25 *)
Definition rfc8288_link_value : re := seqs [chr 60; rfc3986_URI_reference; chr 62; Star (seqs [rfc9110_OWS; chr 59; rfc9110_OWS; rfc8288_link_param])].
(** syntax/rfc8288.py:29 (list element) *)
Definition rfc8288_Link_element : re := rfc8288_link_value.
(** syntax/rfc8288.py:29 *)
Definition rfc8288_Link : re := Opt (seqs [rfc8288_link_value; Star (seqs [rfc9110_OWS; chr 44; rfc9110_OWS; rfc8288_link_value])]).
(** syntax/rfc9111.py:23 *)
Definition rfc9111_delta_seconds : re := rfc9110_Content_Length.
(** syntax/rfc9111.py:27 *)
Definition rfc9111_Age : re := rfc9110_Content_Length.
(** syntax/rfc9111.py:31 *)
Definition rfc9111_cache_directive : re := rfc8288_link_param.
(** syntax/rfc9111.py:35 (list element) *)
Definition rfc9111_Cache_Control_element : re := rfc8288_link_param.
(** syntax/rfc9111.py:35 *)
Definition rfc9111_Cache_Control : re := Opt (seqs [rfc8288_link_param; Star (seqs [rfc9110_OWS; chr 44; rfc9110_OWS; rfc8288_link_param])]).
(** syntax/rfc9111.py:39 *)
Definition rfc9111_Expires : re := rfc9110_HTTP_date.
(** syntax/rfc9111.py:43 *)
Definition rfc9111_extension_pragma : re := rfc8288_link_param.
(** syntax/rfc9111.py:47 *)
Definition rfc9111_pragma_directive : re := alts [lit "no-cache"; rfc8288_link_param].
(** syntax/rfc9111.py:54 (list element) *)
Definition rfc9111_Pragma_element : re := rfc9111_pragma_directive.
(** syntax/rfc9111.py:54 *)
Definition rfc9111_Pragma : re := seqs [rfc9111_pragma_directive; Star (seqs [rfc9110_OWS; chr 44; rfc9110_OWS; rfc9111_pragma_directive])].
(** syntax/rfc9111.py:58 *)
Definition rfc9111_warn_code : re := rep 3%nat rfc5234_DIGIT.
(** syntax/rfc9111.py:62 *)
Definition rfc9111_warn_agent : re := rfc9110_received_by.
(** syntax/rfc9111.py:66 *)
Definition rfc9111_warn_text : re := rfc9110_quoted_string.
(** syntax/rfc9111.py:70 *)
Definition rfc9111_warn_date : re := seqs [chr 34; rfc9110_HTTP_date; chr 34].
(** syntax/rfc9111.py:74 *)
Definition rfc9111_warning_value : re := seqs [rfc9111_warn_code; chr 32; rfc9110_received_by; chr 32; rfc9110_quoted_string; Opt (seqs [chr 32; rfc9111_warn_date])].
(** syntax/rfc9111.py:81 (list element) *)
Definition rfc9111_Warning__element : re := rfc9111_warning_value.
(** syntax/rfc9111.py:81 *)
Definition rfc9111_Warning_ : re := seqs [rfc9111_warning_value; Star (seqs [rfc9110_OWS; chr 44; rfc9110_OWS; rfc9111_warning_value])].
(** syntax/rfc9112.py:36 *)
Definition rfc9112_header_field : re := seqs [rfc9110_token; chr 58; rfc9110_OWS; rfc9110_field_value; rfc9110_OWS].
(** syntax/rfc9112.py:42 *)
Definition rfc9112_chunk_size : re := Plus rfc5234_HEXDIG.
(** syntax/rfc9112.py:46 *)
Definition rfc9112_chunk_ext_name : re := rfc9110_token.
(** syntax/rfc9112.py:50 *)
Definition rfc9112_chunk_ext_val : re := rfc9110_parameter_value.
(** syntax/rfc9112.py:54 *)
Definition rfc9112_chunk_ext : re := seqs [chr 59; rfc8288_link_param].
(** syntax/rfc9112.py:58 *)
Definition rfc9112_chunk_data : re := Plus rfc5234_OCTET.
(** syntax/rfc9112.py:62 *)
Definition rfc9112_chunk : re := seqs [rfc9112_chunk_size; Opt rfc9112_chunk_ext; rfc5234_CRLF; rfc9112_chunk_data; rfc5234_CRLF].
(** syntax/rfc9112.py:66 *)
Definition rfc9112_last_chunk : re := seqs [Plus (chr 48); Opt rfc9112_chunk_ext; rfc5234_CRLF].
(** syntax/rfc9112.py:70 *)
Definition rfc9112_trailer_part : re := Star (seqs [rfc9112_header_field; rfc5234_CRLF]).
(** syntax/rfc9112.py:74 *)
Definition rfc9112_chunked_body : re := seqs [Star (lit "chunk"); rfc9112_last_chunk; rfc9112_trailer_part; rfc5234_CRLF].
(** syntax/rfc9112.py:81 *)
Definition rfc9112_transfer_parameter : re := rfc9110_auth_param.
(** syntax/rfc9112.py:85 *)
Definition rfc9112_transfer_extension : re := rfc9110_transfer_coding.
(** syntax/rfc9112.py:89 *)
Definition rfc9112_transfer_coding : re := alts [lit "chunked"; lit "compress"; lit "deflate"; lit "gzip"; rfc9110_transfer_coding].
(** syntax/rfc9112.py:93 (list element) *)
Definition rfc9112_Transfer_Encoding_element : re := rfc9112_transfer_coding.
(** syntax/rfc9112.py:93 *)
Definition rfc9112_Transfer_Encoding : re := seqs [rfc9112_transfer_coding; Star (seqs [rfc9110_OWS; chr 44; rfc9110_OWS; rfc9112_transfer_coding])].
(** syntax/rfc9112.py:99 *)
Definition rfc9112_HTTP_name : re := lit "HTTP".
(** syntax/rfc9112.py:103 *)
Definition rfc9112_HTTP_version : re := seqs [rfc9112_HTTP_name; chr 47; rfc5234_DIGIT; ncls [(10, 10)]; rfc5234_DIGIT].
(** syntax/rfc9112.py:107 *)
Definition rfc9112_method : re := rfc9110_token.
(** syntax/rfc9112.py:111 *)
Definition rfc9112_absolute_form : re := rfc3986_absolute_URI.
(** syntax/rfc9112.py:115 *)
Definition rfc9112_absolute_path : re := rfc9110_absolute_path.
(** syntax/rfc9112.py:119 *)
Definition rfc9112_asterisk_form : re := chr 42.
(** syntax/rfc9112.py:123 *)
Definition rfc9112_authority_form : re := rfc3986_authority.
(** syntax/rfc9112.py:127 *)
Definition rfc9112_origin_form : re := seqs [rfc9110_absolute_path; Opt rfc3986_query].
(** syntax/rfc9112.py:131 *)
Definition rfc9112_request_target : re := alts [rfc9112_origin_form; rfc3986_absolute_URI; rfc3986_authority; chr 42].
(** syntax/rfc9112.py:135 *)
Definition rfc9112_request_line : re := seqs [rfc9110_token; chr 32; rfc9112_request_target; chr 32; rfc9112_HTTP_version; rfc5234_CRLF].
(** syntax/rfc9112.py:139 *)
Definition rfc9112_status_code : re := rfc9111_warn_code.
(** syntax/rfc9112.py:142 *)
Definition rfc9112_obs_text : re := rfc9110_obs_text.
(** syntax/rfc9112.py:146 *)
Definition rfc9112_reason_phrase : re := Star (cls [(9, 9); (32, 32); (33, 126); (128, 255)]).
(** syntax/rfc9112.py:150 *)
Definition rfc9112_status_line : re := seqs [rfc9112_HTTP_version; chr 32; rfc9111_warn_code; chr 32; rfc9112_reason_phrase; rfc5234_CRLF].
(** syntax/rfc9112.py:154 *)
Definition rfc9112_start_line : re := alts [rfc9112_request_line; rfc9112_status_line].
(** syntax/rfc9112.py:158 *)
Definition rfc9112_message_body : re := Star rfc5234_OCTET.
(** syntax/rfc9112.py:162 *)
Definition rfc9112_HTTP_message : re := seqs [rfc9112_start_line; rfc9112_trailer_part; rfc5234_CRLF; Opt rfc9112_message_body].
(** syntax/rfc9651.py:17 *)
Definition rfc9651_sf_integer : re := seqs [Opt (chr 45); between 1%nat 15%nat rfc5234_DIGIT].
(** syntax/rfc9651.py:20 *)
Definition rfc9651_sf_decimal : re := seqs [Opt (chr 45); between 1%nat 12%nat rfc5234_DIGIT; chr 46; between 1%nat 3%nat rfc5234_DIGIT].
(** syntax/rfc9651.py:25 *)
Definition rfc9651_sf_string : re := seqs [chr 34; Star (alts [cls [(32, 33); (35, 91); (93, 126)]; seqs [chr 92; cls [(34, 34); (92, 92)]]]); chr 34].
(** syntax/rfc9651.py:30 *)
Definition rfc9651_sf_token : re := seqs [cls [(97, 122); (65, 90); (42, 42)]; Star (cls [(97, 122); (65, 90); (48, 57); (33, 33); (35, 35); (36, 36); (37, 37); (38, 38); (39, 39); (42, 42); (43, 43); (45, 45); (46, 46); (94, 94); (95, 95); (96, 96); (124, 124); (126, 126); (58, 58); (47, 47)])].
(** syntax/rfc9651.py:34 *)
Definition rfc9651_sf_binary : re := seqs [chr 58; Star (cls [(97, 122); (65, 90); (48, 57); (43, 43); (47, 47); (61, 61)]); chr 58].
(** syntax/rfc9651.py:37 *)
Definition rfc9651_sf_boolean : re := seqs [chr 63; rfc5234_BIT].
(** syntax/rfc9651.py:40 *)
Definition rfc9651_sf_date : re := seqs [chr 64; rfc9651_sf_integer].
(** syntax/rfc9651.py:43-45 *)
Definition rfc9651_bare_item : re := alts [rfc9651_sf_decimal; rfc9651_sf_integer; rfc9651_sf_string; rfc9651_sf_token; rfc9651_sf_binary; rfc9651_sf_boolean; rfc9651_sf_date].
(** syntax/rfc9651.py:49 *)
Definition rfc9651_key : re := seqs [cls [(97, 122); (42, 42)]; Star (cls [(97, 122); (48, 57); (95, 95); (45, 45); (46, 46); (42, 42)])].
(** syntax/rfc9651.py:52 *)
Definition rfc9651_param_key : re := rfc9651_key.
(** syntax/rfc9651.py:55 *)
Definition rfc9651_param_value : re := rfc9651_bare_item.
(** syntax/rfc9651.py:58 *)
Definition rfc9651_parameter : re := seqs [chr 59; Star (chr 32); rfc9651_key; Opt (seqs [chr 61; rfc9651_bare_item])].
(** syntax/rfc9651.py:61 *)
Definition rfc9651_parameters : re := Star rfc9651_parameter.
(** syntax/rfc9651.py:64 *)
Definition rfc9651_sf_item : re := seqs [rfc9651_bare_item; rfc9651_parameters].
(** syntax/rfc9651.py:67 *)
Definition rfc9651_inner_list : re := seqs [chr 40; Star (chr 32); Opt (seqs [rfc9651_sf_item; Star (seqs [Plus (chr 32); rfc9651_sf_item]); Star (chr 32)]); chr 41; rfc9651_parameters].
(** syntax/rfc9651.py:73 *)
Definition rfc9651_list_member : re := alts [rfc9651_sf_item; rfc9651_inner_list].
(** syntax/rfc9651.py:74 *)
Definition rfc9651_sf_list : re := seqs [rfc9651_list_member; Star (seqs [rfc9110_OWS; chr 44; rfc9110_OWS; rfc9651_list_member])].
(** syntax/rfc9651.py:80 *)
Definition rfc9651_member_key : re := rfc9651_key.
(** syntax/rfc9651.py:81 *)
Definition rfc9651_member_value : re := rfc9651_list_member.
(** syntax/rfc9651.py:82 *)
Definition rfc9651_dict_member : re := seqs [rfc9651_key; Opt (seqs [chr 61; rfc9651_list_member])].
(** syntax/rfc9651.py:83 *)
Definition rfc9651_sf_dictionary : re := seqs [rfc9651_dict_member; Star (seqs [rfc9110_OWS; chr 44; rfc9110_OWS; rfc9651_dict_member])].
(** syntax/rfc9651.py:86 *)
Definition rfc9651_sf_value : re := alts [rfc9651_sf_dictionary; rfc9651_sf_list; rfc9651_sf_item].
(** field/parsers/accept_patch.py:23 (list element) *)
Definition field_accept_patch_element : re := rfc9110_media_type.
(** field/parsers/accept_patch.py:23 *)
Definition field_accept_patch : re := seqs [rfc9110_media_type; Star (seqs [rfc9110_OWS; chr 44; rfc9110_OWS; rfc9110_media_type])].
(** field/parsers/accept_post.py:24 (list element) *)
Definition field_accept_post_element : re := rfc9110_media_range.
(** field/parsers/accept_post.py:24 *)
Definition field_accept_post : re := Opt (seqs [rfc9110_media_range; Star (seqs [rfc9110_OWS; chr 44; rfc9110_OWS; rfc9110_media_range])]).
(** field/parsers/access_control_allow_credentials.py:19 *)
Definition field_access_control_allow_credentials : re := lit "true".
(** field/parsers/access_control_allow_origin.py:25 *)
Definition field_access_control_allow_origin : re := alts [chr 42; lit "null"; rfc3986_URI_reference].
(** field/parsers/alt_svc.py:22-26 *)
Definition field_alt_svc : re := alts [lit "clear"; seqs [rfc9110_token; chr 61; rfc9110_quoted_string; Star (seqs [rfc9110_OWS; chr 59; rfc9110_OWS; rfc9110_parameter])]].
(** field/parsers/clear_site_data.py:20 (list element) *)
Definition field_clear_site_data_element : re := rfc9110_quoted_string.
(** field/parsers/clear_site_data.py:20 *)
Definition field_clear_site_data : re := seqs [rfc9110_quoted_string; Star (seqs [rfc9110_OWS; chr 44; rfc9110_OWS; rfc9110_quoted_string])].
(** field/parsers/content_disposition.py:24 *)
Definition field_content_disposition : re := seqs [rfc9110_token; Star (seqs [Star ws; chr 59; Star ws; rfc9110_parameter])].
(** field/parsers/content_md5.py:19 *)
Definition field_content_md5 : re := seqs [rep 22%nat (cls [(65, 90); (97, 122); (48, 57); (43, 43); (47, 47)]); rep 2%nat (chr 61)].
(** field/parsers/content_security_policy.py:30 *)
Definition field_content_security_policy : re := seqs [Plus (cls [(97, 122); (65, 90); (48, 57); (45, 45)]); Opt (seqs [rfc9110_RWS; Star (cls [(32, 32); (9, 9); (33, 43); (45, 58); (60, 126)])]); Star (seqs [rfc9110_OWS; chr 59; Opt (seqs [rfc9110_OWS; Plus (cls [(97, 122); (65, 90); (48, 57); (45, 45)]); Opt (seqs [rfc9110_RWS; Star (cls [(32, 32); (9, 9); (33, 43); (45, 58); (60, 126)])])])])].
(** field/parsers/keep_alive.py:27 (list element) *)
Definition field_keep_alive_element : re := rfc9110_parameter.
(** field/parsers/keep_alive.py:27 *)
Definition field_keep_alive : re := Opt (seqs [rfc9110_parameter; Star (seqs [rfc9110_OWS; chr 44; rfc9110_OWS; rfc9110_parameter])]).
(** field/parsers/server_timing.py:24 (list element) *)
Definition field_server_timing_element : re := seqs [rfc9110_token; rfc9110_parameters].
(** field/parsers/server_timing.py:24 *)
Definition field_server_timing : re := Opt (seqs [field_server_timing_element; Star (seqs [rfc9110_OWS; chr 44; rfc9110_OWS; field_server_timing_element])]).
(** field/parsers/strict_transport_security.py:23-25 *)
Definition field_strict_transport_security : re := seqs [rfc9110_token; Opt (seqs [rfc9110_OWS; chr 61; rfc9110_OWS; rfc9110_parameter_value]); Star (seqs [rfc9110_OWS; chr 59; rfc9110_OWS; rfc9110_token; Opt (seqs [rfc9110_OWS; chr 61; rfc9110_OWS; rfc9110_parameter_value])]); Opt (seqs [rfc9110_OWS; chr 59])].
(** field/parsers/x_content_type_options.py:13 *)
Definition field_x_content_type_options : re := lit "nosniff".
(** field/parsers/x_frame_options.py:33 *)
Definition field_x_frame_options : re := alts [lit "DENY"; lit "SAMEORIGIN"; seqs [lit "ALLOW-FROM"; rfc9110_RWS; rfc3986_scheme; lit "://"; rfc9110_Host]].
(** field/utils.py:19-21 *)
Definition utils_restricted_name_unbounded : re := seqs [rfc6838_restricted_name_first; Star rfc6838_restricted_name_chars].
(** field/utils.py:168 *)
Definition utils_list_item : re := Plus (alts [ncls [(34, 34); (44, 44)]; rfc9110_quoted_string]).
(** field/utils.py:168 *)
Definition utils_list_split : re := seqs [Star ws; Plus (seqs [chr 44; Star ws])].
(** field/utils.py:187 with delim=";" *)
Definition utils_param_split : re := seqs [Star ws; chr 59; Star ws].
(** field/utils.py:187 with delim="," *)
Definition utils_param_split_comma : re := seqs [Star ws; chr 44; Star ws].
