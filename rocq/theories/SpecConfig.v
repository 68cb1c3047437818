(** Vocabulary of C72: options, their values, and what each configuration call says about them. *)
From Verif Require Import Base ModelBestfit ModelUrl ModelState ModelConfig.
From Coq Require Import ZArith.

(** The options by the names of the documentation. *)
Inductive opt :=
| OFieldLimit | OLogLevel | OAutoDestroy | OPersonality | OResponseDecompression | ORequestDecompression | OUrlencoded | OAuth | OLeadingSpace
| OFlush | OMaxTx | OLayers | OLzmaLayers | OLzmaMemory | OBombLimit | OBombRatio | OTimeLimit | OIncludeAll
| ODoublePath | ODoubleQuery | OBackslash | OLowercase | OCompress | OSeparators | OPlus | ORawNul | ORawNulReaction | OControlReaction | OSpaceUri
| OUEncoding | OUReaction | OInvalid | OInvalidReaction | OEncodedNul | OEncodedNulReaction | OUtf8Reaction | OUtf8 | OMap | OReplacement.
Inductive value := VFlag (b : bool) | VNum (n : N) | VLimit (n : option N) | VReaction (u : unwanted) | VInvalid (h : url_handling) | VPers (p : pers) | VMap (m : list (N * N)).

(** How an option of a configuration is read. *)
Definition value_of (o : opt) (g : settings) : value :=
  let c := g_cfg g in
  let d := c_dcfg c in
  match o with
  | OFieldLimit => VNum (c_field_limit c) | OLogLevel => VNum (c_log_level c) | OAutoDestroy => VFlag (c_auto_destroy c) | OPersonality => VPers (g_pers g)
  | OResponseDecompression => VFlag (c_resp_decomp c) | ORequestDecompression => VFlag (c_req_decomp c) | OUrlencoded => VFlag (c_parse_urlenc c)
  | OAuth => VFlag (c_parse_auth c) | OLeadingSpace => VReaction (c_ws_unwanted c) | OFlush => VFlag (c_flush c) | OMaxTx => VNum (c_max_tx c)
  | OLayers => VLimit (c_layer_limit c) | OLzmaLayers => VLimit (c_lzma_layers c) | OLzmaMemory => VLimit (g_lzma_memlimit g)
  | OBombLimit => VNum (c_bomb_limit c) | OBombRatio => VNum (c_bomb_ratio c) | OTimeLimit => VNum (g_time_limit g) | OIncludeAll => VFlag (g_include_all g)
  | ODoublePath => VFlag (double_decode_normalized_path d) | ODoubleQuery => VFlag (double_decode_normalized_query d)
  | OBackslash => VFlag (backslash_convert_slashes d) | OLowercase => VFlag (convert_lowercase d) | OCompress => VFlag (path_separators_compress d)
  | OSeparators => VFlag (path_separators_decode d) | OPlus => VFlag (plusspace_decode d) | ORawNul => VFlag (nul_raw_terminates d)
  | ORawNulReaction => VReaction (nul_raw_unwanted d) | OControlReaction => VReaction (control_chars_unwanted d) | OSpaceUri => VFlag (allow_space_uri d)
  | OUEncoding => VFlag (u_encoding_decode d) | OUReaction => VReaction (u_encoding_unwanted d) | OInvalid => VInvalid (url_encoding_invalid_handling d)
  | OInvalidReaction => VReaction (url_encoding_invalid_unwanted d) | OEncodedNul => VFlag (nul_encoded_terminates d)
  | OEncodedNulReaction => VReaction (nul_encoded_unwanted d) | OUtf8Reaction => VReaction (utf8_invalid_unwanted d) | OUtf8 => VFlag (utf8_convert_bestfit d)
  | OMap => VMap (bm_map (bestfit d)) | OReplacement => VNum (bm_repl (bestfit d))
  end.
(** The documented defaults. *)
Definition initial (o : opt) : value :=
  match o with
  | OFieldLimit => VNum 18000 | OLogLevel => VNum LvNotice | OPersonality => VPers PMinimal | OMaxTx => VNum 512
  | OResponseDecompression | OAuth | OPlus => VFlag true
  | OLayers => VLimit (Some 2) | OLzmaLayers => VLimit (Some 1) | OLzmaMemory => VLimit (Some 1048576)
  | OBombLimit => VNum 1048576 | OBombRatio => VNum 2048 | OTimeLimit => VNum 100000
  | OLeadingSpace | ORawNulReaction | OControlReaction | OUReaction | OInvalidReaction | OEncodedNulReaction | OUtf8Reaction => VReaction UIgnore
  | OInvalid => VInvalid PRESERVE_PERCENT | OMap => VMap (bm_map bestfit_default) | OReplacement => VNum 63
  | _ => VFlag false
  end.

(** What a server personality stands for; two of the names are not supported. *)
Definition supported (p : pers) : bool := match p with PIis40 | PIis50 => false | _ => true end.
Definition traits (p : pers) : list (opt * value) :=
  match p with
  | PMinimal | PIis40 | PIis50 => []
  | PGeneric => [(OBackslash, VFlag true); (OSeparators, VFlag true); (OCompress, VFlag true)]
  | PIds => [(OBackslash, VFlag true); (OSeparators, VFlag true); (OCompress, VFlag true); (OLowercase, VFlag true); (OUtf8, VFlag true);
             (OUEncoding, VFlag true); (OLeadingSpace, VReaction UIgnore)]
  | PApache2 => [(OBackslash, VFlag false); (OSeparators, VFlag false); (OCompress, VFlag true); (OUEncoding, VFlag false); (OInvalid, VInvalid PRESERVE_PERCENT);
                 (OInvalidReaction, VReaction U400); (OControlReaction, VReaction UIgnore); (OLeadingSpace, VReaction U400)]
  | PIis51 => [(OBackslash, VFlag true); (OSeparators, VFlag true); (OCompress, VFlag true); (OUEncoding, VFlag false); (OInvalid, VInvalid PRESERVE_PERCENT);
               (OControlReaction, VReaction UIgnore); (OLeadingSpace, VReaction UIgnore)]
  | PIis60 => [(OBackslash, VFlag true); (OSeparators, VFlag true); (OCompress, VFlag true); (OUEncoding, VFlag true); (OInvalid, VInvalid PRESERVE_PERCENT);
               (OUReaction, VReaction U400); (OControlReaction, VReaction U400); (OLeadingSpace, VReaction UIgnore)]
  | PIis70 | PIis75 => [(OBackslash, VFlag true); (OSeparators, VFlag true); (OCompress, VFlag true); (OUEncoding, VFlag true); (OInvalid, VInvalid PRESERVE_PERCENT);
               (OInvalidReaction, VReaction U400); (OControlReaction, VReaction U400); (OLeadingSpace, VReaction UIgnore)]
  end.
Definition personality_says (p : pers) : list (opt * value) := if supported p then (OPersonality, VPers p) :: traits p else [].

(** What a call says. *)
Definition says (c : rust_call) : list (opt * value) :=
  match c with
  | RDoubleDecodeNormalizedPath b => [(ODoublePath, VFlag b)] | RDoubleDecodeNormalizedQuery b => [(ODoubleQuery, VFlag b)]
  | RBackslashConvertSlashes b => [(OBackslash, VFlag b)] | RConvertLowercase b => [(OLowercase, VFlag b)]
  | RPathSeparatorsCompress b => [(OCompress, VFlag b)] | RPathSeparatorsDecode b => [(OSeparators, VFlag b)]
  | RPlusspaceDecode b => [(OPlus, VFlag b)] | RNulRawTerminates b => [(ORawNul, VFlag b)] | RControlCharsUnwanted u => [(OControlReaction, VReaction u)]
  | RAllowSpaceUri b => [(OSpaceUri, VFlag b)] | RUEncodingDecode b => [(OUEncoding, VFlag b)] | RUEncodingUnwanted u => [(OUReaction, VReaction u)]
  | RUrlEncodingInvalidHandling h => [(OInvalid, VInvalid h)] | RUrlEncodingInvalidUnwanted u => [(OInvalidReaction, VReaction u)]
  | RNulEncodedTerminates b => [(OEncodedNul, VFlag b)] | RUtf8ConvertBestfit b => [(OUtf8, VFlag b)]
  | RBestfitMap m => [(OMap, VMap (bm_map m)); (OReplacement, VNum (bm_repl m))] | RBestfitReplacementByte b => [(OReplacement, VNum b)]
  | RParseUrlencoded b => [(OUrlencoded, VFlag b)] | RFieldLimit n => [(OFieldLimit, VNum n)] | RTxAutoDestroy b => [(OAutoDestroy, VFlag b)]
  | RFlushIncomplete b => [(OFlush, VFlag b)] | RRequestlineLeadingWhitespaceUnwanted u => [(OLeadingSpace, VReaction u)]
  | RRequestDecompression b => [(ORequestDecompression, VFlag b)] | RDecompressionLayerLimit l => [(OLayers, VLimit l)]
  | RNormalizedUriIncludeAll b => [(OIncludeAll, VFlag b)]
  | RLzmaMemlimit n => [(OLzmaMemory, VLimit (if n =? 0 then None else Some n))] | RLzmaLayers l => [(OLzmaLayers, VLimit l)]
  | RBombLimit n => [(OBombLimit, VNum n)] | RBombRatio n => [(OBombRatio, VNum n)] | RTimeLimit n => [(OTimeLimit, VNum n)]
  | RServerPersonality p => personality_says p
  end.
(** The C interface: an int is a flag that is set by exactly 1, a limit that is none if not positive, a byte modulo 256. *)
Definition flag (z : Z) : value := VFlag (if Z.eq_dec z 1 then true else false).
Definition limit (z : Z) : value := VLimit (match z with Zpos p => Some (Npos p) | _ => None end).
Definition c_says (c : c_call) : list (opt * value) :=
  match c with
  | CBackslashConvertSlashes z => [(OBackslash, flag z)] | CConvertLowercase z => [(OLowercase, flag z)] | CNulEncodedTerminates z => [(OEncodedNul, flag z)]
  | CNulRawTerminates z => [(ORawNul, flag z)] | CPathSeparatorsCompress z => [(OCompress, flag z)] | CPlusspaceDecode z => [(OPlus, flag z)]
  | CPathSeparatorsDecode z => [(OSeparators, flag z)] | CRequestDecompression z => [(ORequestDecompression, flag z)] | CUEncodingDecode z => [(OUEncoding, flag z)]
  | CUtf8ConvertBestfit z => [(OUtf8, flag z)] | CTxAutoDestroy z => [(OAutoDestroy, flag z)] | CFlushIncomplete z => [(OFlush, flag z)]
  | CParseUrlencoded z => [(OUrlencoded, flag z)]
  | CAllowSpaceUri b => [(OSpaceUri, VFlag b)] | CDoubleDecodeNormalizedQuery b => [(ODoubleQuery, VFlag b)] | CDoubleDecodeNormalizedPath b => [(ODoublePath, VFlag b)]
  | CNormalizedUriIncludeAll b => [(OIncludeAll, VFlag b)]
  | CBestfitReplacementByte z => [(OReplacement, VNum (Z.to_N (z mod 256)))] | CCompressionBombLimit n => [(OBombLimit, VNum n)]
  | CCompressionTimeLimit n => [(OTimeLimit, VNum n)] | CFieldLimit n => [(OFieldLimit, VNum n)]
  | CLzmaMemlimit n => [(OLzmaMemory, VLimit (if n =? 0 then None else Some n))] | CLzmaLayers z => [(OLzmaLayers, limit z)] | CMaxTx n => [(OMaxTx, VNum n)]
  | CParseRequestCookies _ => [] | CDecompressionLayerLimit z => [(OLayers, limit z)] | CServerPersonality p => personality_says p
  | CUrlEncodingInvalidHandling h => [(OInvalid, VInvalid h)]
  end.

Definition opt_eq (a b : opt) : {a = b} + {a <> b}.
Proof. decide equality. Defined.
(** The last word about an option, if any. *)
Fixpoint last_word (o : opt) (l : list (opt * value)) (v : value) : value :=
  match l with
  | [] => v
  | (o', w) :: l => last_word o l (if opt_eq o o' then w else v)
  end.
