(** Property C78 of properties.jsonl: which decoders a Content-Encoding header sets up. Vocabulary: SpecCoding.v; [the_header] and
    [lacks]: SpecTx.v. [layers_of] lists the decoders, the one the body goes through first at the head. *)
From Verif Require Import Base ModelUtil ModelBstr ModelHeaders ModelState ModelTx Spec SpecBytes SpecTx SpecDecomp SpecCoding ProofsCoding.

(** * C78 *)
(** A value that is the name of one coding is told as such and, if decompression is on, sets up that decoder. Any other value is told
    as no coding; if decompression is on, it is a list of words, and the codings of the words used are undone from the last to the
    first. *)
Theorem C78_value_read : forall sd cfg d h, t_dec d = None -> the_header (t_headers d) (s2b "content-encoding") h ->
  let d' := fst (initialize_decompressors sd cfg d) in let lg := snd (initialize_decompressors sd cfg d) in
  (exists o, alone (hd_value h) o /\ t_ce d' = match o with Some c => c | None => CeNone end /\ lg = [] /\
     layers_of d' = match o with Some c => if decompression_enabled sd cfg then [c] else [] | None => [] end) \/
  (forall o, ~ alone (hd_value h) o) /\ t_ce d' = CeNone /\
     (decompression_enabled sd cfg = false /\ layers_of d' = [] /\ lg = [] \/
      decompression_enabled sd cfg = true /\ exists ws a cs, words (hd_value h) ws /\ taken sd cfg ws a lg /\ codings a cs /\ layers_of d' = rev cs).
Proof. exact value_read. Qed.
Print Assumptions C78_value_read.
(** Without the header nothing is set up and nothing is told. *)
Theorem C78_no_header : forall sd cfg d, t_dec d = None -> lacks (t_headers d) (s2b "content-encoding") ->
  let d' := fst (initialize_decompressors sd cfg d) in
  t_ce d' = CeNone /\ layers_of d' = [] /\ snd (initialize_decompressors sd cfg d) = [].
Proof. exact value_absent. Qed.
Print Assumptions C78_no_header.
(** Every value has one list of words, of which one part is used, with one list of codings; it is the name of at most one coding. *)
Theorem C78_one_reading : forall v, (exists ws, words v ws) /\ (forall ws ws', words v ws -> words v ws' -> ws = ws') /\
  (forall o o', alone v o -> alone v o' -> o = o') /\
  (forall sd cfg ws a a' l l', taken sd cfg ws a l -> taken sd cfg ws a' l' -> a = a' /\ l = l') /\
  (forall a cs cs', codings a cs -> codings a cs' -> cs = cs').
Proof. exact reading_one. Qed.
Print Assumptions C78_one_reading.
(** Words that mean no coding use up the limit: by default, a gzip body behind two of them is left as it is. *)
Theorem C78_idle_words_refuted : exists d h, t_dec d = None /\ the_header (t_headers d) (s2b "content-encoding") h /\
  hd_value h = s2b "identity, identity, gzip" /\ layers_of (fst (initialize_decompressors SResp config_default d)) = [].
Proof. exact idle_words. Qed.
Print Assumptions C78_idle_words_refuted.
(** "LZMA" is a coding alone, but not in a list; and in a list of a request every word counts for the lzma limit. *)
Theorem C78_lzma_refuted : exists cfg, c_lzma_layers cfg = Some 1 /\
  (forall sd, layers_of (fst (initialize_decompressors sd cfg (ce_field "LZMA"))) = [CeLzma]) /\
  (forall sd, layers_of (fst (initialize_decompressors sd cfg (ce_field "LZMA, gzip"))) = [CeGzip]) /\
  layers_of (fst (initialize_decompressors SReq cfg (ce_field "gzip, lzma"))) = [CeGzip] /\
  layers_of (fst (initialize_decompressors SResp cfg (ce_field "gzip, lzma"))) = [CeLzma; CeGzip].
Proof. exact lzma_words. Qed.
Print Assumptions C78_lzma_refuted.

Example C78_ex : layers_of (fst (initialize_decompressors SResp config_default (ce_field " X-GZip;q=1,deflate,"))) = [CeDeflate; CeGzip] /\
  snd (initialize_decompressors SResp config_default (ce_field " X-GZip;q=1,deflate,")) = [warning "ABNORMAL_CE_HEADER"] /\
  words (s2b " X-GZip;q=1,deflate,") [s2b "X-GZip;q=1"; s2b "deflate"] /\
  layers_of (fst (initialize_decompressors SReq (set_c_req_decomp true config_default) (ce_field "gZ"))) = [].
Proof.
  split; [vm_compute; reflexivity|]. split; [vm_compute; reflexivity|]. split; [|vm_compute; reflexivity].
  destruct (words_total (s2b " X-GZip;q=1,deflate,")) as (ws & W). pose proof (words_split _ _ W) as E. vm_compute in E. subst ws. exact W.
Qed.
