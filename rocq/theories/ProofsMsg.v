(** Streams of well-formed requests: every message is parsed exactly, wherever the stream is cut. *)
From Verif Require Import ProofsUrl ProofsUri.
From Verif Require Import Base Spec SpecTx SpecConn SpecMsg ModelUtil ModelBstr ModelParsers ModelUrl ModelUri ModelHeaders ModelState ModelTx ModelConn ModelHook
  ProofsBase ProofsBstr ProofsParsers ProofsHeaders ProofsTx ProofsConn ProofsCore ProofsStep ProofsStepResp ProofsLoop ProofsHist ProofsQuiet ProofsEval ProofsBody ProofsHead ProofsFrame ProofsStream ProofsChunk.

(** * What the header block makes of a transaction *)
Definition settles (t t' : tx) : Prop :=
  (exists c l ct, x_req t' = set_t_ctype ct (set_t_clen l (set_t_coding c (x_req t)))) /\
  reply_part t' = reply_part t /\ x_method t' = x_method t /\ x_methodn t' = x_methodn t /\ x_uri t' = x_uri t /\ x_is09 t' = x_is09 t /\ x_raw t' = x_raw t.
Lemma settles_refl t t' : x_req t' = x_req t -> reply_part t' = reply_part t -> x_method t' = x_method t -> x_methodn t' = x_methodn t -> x_uri t' = x_uri t -> x_is09 t' = x_is09 t -> x_raw t' = x_raw t -> settles t t'.
Proof. intros E. repeat split; try assumption. exists (t_coding (x_req t)), (t_clen (x_req t)), (t_ctype (x_req t)). rewrite E. destruct (x_req t); reflexivity. Qed.
Lemma settles_trans a b c : settles a b -> settles b c -> settles a c.
Proof.
  intros ((c1 & l1 & y1 & E1) & A1 & A2 & A3 & A4 & A5 & A6) ((c2 & l2 & y2 & E2) & B1 & B2 & B3 & B4 & B5 & B6). repeat split; try congruence.
  exists c2, l2, y2. rewrite E2, E1. destruct (x_req a); reflexivity.
Qed.
Ltac settled t := split; [|repeat split; reflexivity]; destruct t as [[] ? ? ? ? ? ? ? ? ? ? ? ? ? ? ? ? ? ? ? ? ? ? ?]; eexists _, _, _; cbn; unfold set_t_ctype, set_t_clen, set_t_coding; cbn; reflexivity.
Lemma framing_settles t : settles t (fst (request_framing t)).
Proof.
  unfold request_framing. destruct (headers_get_nocase_nozero _ (s2b "transfer-encoding")) as [te|].
  - destruct (negb _); cbn [fst]; [settled t|]. destruct (is_some (headers_get_nocase_nozero _ _)), (proto_ltb _ _); settled t.
  - destruct (headers_get_nocase_nozero _ _) as [cl|]; cbn [fst]; [|settled t]. destruct (parse_content_length_log _) as [[n|] lg]; cbn [fst]; destruct (fis_set _ FIELD_FOLDED), (fis_set _ FIELD_REPEATED); settled t.
Qed.
Lemma host_settles ip6 t : settles t (request_host ip6 t).
Proof.
  unfold request_host. set (a := match parsed_hostname t with Some _ => _ | None => _ end). assert (Ha : settles t a) by (unfold a; destruct (parsed_hostname t); settled t). clearbody a.
  set (b := match parsed_port_number a with Some _ => _ | None => _ end). assert (Hb : settles a b) by (unfold b; destruct (parsed_port_number a); settled a). clearbody b.
  apply (settles_trans _ _ _ Ha), (settles_trans _ _ _ Hb). clear.
  destruct headers_get_nocase_nozero as [h|]; [|destruct (proto_ltb _ _); settled b].
  destruct (parse_hostport ip6 (hd_value h)) as [? [[hn pn] v]| |]; [|destruct (is_some _); settled b..].
  set (c := if v then b else _). assert (Hc : settles b c) by (unfold c; destruct v; settled b). clearbody c. apply (settles_trans _ _ _ Hc). clear.
  destruct (x_host c) as [ho|].
  - destruct (is_eq _); (destruct pn as [[? p]|]; [|settled c]); cbn; destruct (x_port c); try settled c; destruct p; try settled c; destruct (_ =? _); settled c.
  - destruct pn as [[? p]|]; settled c.
Qed.
Lemma auth_settles p b64 t : settles t (request_auth p b64 t).
Proof.
  unfold request_auth. destruct p; [|settled t]. unfold parse_authorization. destruct headers_get_nocase_nozero as [h|]; [|settled t].
  destruct (starts_with_nocase _ _).
  { unfold parse_authorization_basic. match goal with |- context [match ?p (hd_value h) with _ => _ end] => destruct (p (hd_value h)) as [r ?| |] end; [|settled t..]. destruct (b64 r) as [d|]; [|settled t]. destruct (find_sub _ d) as [[? ?]|]; settled t. }
  destruct (starts_with_nocase _ _). { destruct (parse_authorization_digest _); settled t. }
  destruct (starts_with_nocase _ _); [|settled t]. match goal with |- context [match ?p (hd_value h) with _ => _ end] => destruct (p (hd_value h)) as [r ?| |] end; settled t.
Qed.
Lemma process_settles p ip6 b64 t t' lg : process_request_headers p ip6 b64 t = (true, t', lg) -> settles t t'.
Proof.
  unfold process_request_headers. pose proof (framing_settles t) as F. destruct (request_framing t) as [t1 lg1]. cbn [fst] in F. pose proof (host_settles ip6 t1) as H.
  destruct headers_get_nocase_nozero as [ct|].
  - destruct (parse_content_type _) as [v|]; [|discriminate]. intros [= <- <-]. apply (settles_trans _ _ _ F), (settles_trans _ _ _ H). eapply settles_trans; [|apply auth_settles].
    clear. generalize (request_host ip6 t1). intro t. settled t.
  - intros [= <- <-]. apply (settles_trans _ _ _ F), (settles_trans _ _ _ H), auth_settles.
Qed.
(** The host: what the framing and the credentials do not touch, and what is set. *)
Definition stays (t t' : tx) : Prop := x_parsed t' = x_parsed t /\ x_host t' = x_host t /\ x_port t' = x_port t /\ t_headers (x_req t') = t_headers (x_req t).
Lemma framing_stays t : stays t (fst (request_framing t)).
Proof.
  unfold request_framing. destruct (headers_get_nocase_nozero _ (s2b "transfer-encoding")) as [te|].
  - destruct (negb _); cbn [fst]; [repeat split; reflexivity|]. destruct (is_some (headers_get_nocase_nozero _ _)), (proto_ltb _ _); repeat split; reflexivity.
  - destruct (headers_get_nocase_nozero _ _) as [cl|]; cbn [fst]; [|repeat split; reflexivity]. destruct (parse_content_length_log _) as [[n|] lg]; cbn [fst]; destruct (fis_set _ FIELD_FOLDED), (fis_set _ FIELD_REPEATED); repeat split; reflexivity.
Qed.
Lemma auth_stays p b64 t : stays t (request_auth p b64 t).
Proof.
  unfold request_auth. destruct p; [|repeat split; reflexivity]. unfold parse_authorization. destruct headers_get_nocase_nozero as [h|]; [|repeat split; reflexivity].
  destruct (starts_with_nocase _ _).
  { unfold parse_authorization_basic. match goal with |- context [match ?p (hd_value h) with _ => _ end] => destruct (p (hd_value h)) as [r ?| |] end; [|repeat split; reflexivity..]. destruct (b64 r) as [d|]; [|repeat split; reflexivity]. destruct (find_sub _ _) as [[]|]; repeat split; reflexivity. }
  destruct (starts_with_nocase _ _). { destruct (parse_authorization_digest _); repeat split; reflexivity. }
  destruct (starts_with_nocase _ _); [|repeat split; reflexivity]. match goal with |- context [match ?p (hd_value h) with _ => _ end] => destruct (p (hd_value h)) as [r ?| |] end; repeat split; reflexivity.
Qed.
Lemma process_host p ip6 b64 t t' lg h r hn pn v : process_request_headers p ip6 b64 t = (true, t', lg) -> parsed_hostname t = None -> parsed_port_number t = None ->
  x_host t = None -> x_port t = None -> headers_get_nocase_nozero (t_headers (x_req t)) (s2b "host") = Some h -> parse_hostport ip6 (hd_value h) = POk r (hn, pn, v) ->
  x_host t' = Some (lowers hn) /\ x_port t' = match pn with Some (_, p) => p | None => None end.
Proof.
  intros H Ph Pp Xh Xp Gh Eh. unfold process_request_headers in H. pose proof (framing_stays t) as (F1 & F2 & F3 & F4). destruct (request_framing t) as [t1 lg1]. cbn [fst] in *.
  assert (Z : x_host (request_host ip6 t1) = Some (lowers hn) /\ x_port (request_host ip6 t1) = match pn with Some (_, p) => p | None => None end).
  { unfold request_host. unfold parsed_hostname, parsed_port_number in *. rewrite F1, Ph, F1, Pp, F4, Gh, Eh. destruct v.
    - rewrite F2, Xh. destruct pn as [[? p']|]; split; try reflexivity. cbn. congruence.
    - replace (x_host (add_flag HOSTH_INVALID t1)) with (x_host t1) by reflexivity. rewrite F2, Xh. destruct pn as [[? p']|]; split; try reflexivity. cbn. congruence. }
  clear F1 F2 F3 F4 Gh Eh. set (t2 := request_host ip6 t1) in *. clearbody t2. destruct headers_get_nocase_nozero as [ct|].
  - destruct (parse_content_type _) as [w|]; [|discriminate]. injection H as <- _. match goal with |- context [request_auth p b64 ?z] => destruct (auth_stays p b64 z) as (_ & -> & -> & _) end. exact Z.
  - injection H as <- _. match goal with |- context [request_auth p b64 ?z] => destruct (auth_stays p b64 z) as (_ & -> & -> & _) end. exact Z.
Qed.
Lemma hostport_good ip6 v h p : host_text v h p -> exists r pn b, parse_hostport ip6 v = POk r (h, pn, b) /\ match pn with Some (_, n) => n | None => None end = p.
Proof.
  intros (Hh & [[-> ->] | (d & -> & Nd & Dd & Rd & ->)]); unfold parse_hostport.
  - pose proof (hostname_ok h [] Hh) as Ho. rewrite app_nil_r in Ho. rewrite Ho by discriminate. rewrite port_none by discriminate. eexists _, _, _. split; reflexivity.
  - rewrite (hostname_ok h (s2b ":" ++ d) Hh).
    2:{ intros x r E. injection E as <- _. cbn. auto. }
    assert (Nb : no_bytes (s2b "/?# ") d) by (eapply Forall_impl; [|exact Dd]; intros c Hc I; unfold digit in Hc; cbn in I; intuition lia).
    pose proof (port_ok d [] Nd Nb ltac:(discriminate)) as Po. rewrite app_nil_r in Po. change (s2b ":" ++ d) with (58 :: d). rewrite Po.
    replace (convert_port d) with (Some (dec_value d)); [eexists _, _, _; split; reflexivity|]. symmetry. apply convert_port_spec. exists d. repeat split; [now left|assumption..|apply Rd|apply Rd].
Qed.
Lemma content_type_good x v w : ~ c_space x -> x <> 59 -> x <> 44 -> exists r, parse_content_type ((x :: v) ++ w) = Some r.
Proof.
  intros S A B. unfold parse_content_type, pbind, take_ascii_whitespace, take_while_c, is_not_c, take_while1_c. cbn [app span].
  replace (is_ascii_ws x) with false by (symmetry; apply Bool.not_true_is_false; intro Z; apply S; left; revert Z; unfold is_ascii_ws, ascii_space; lia).
  cbn [span]. replace (memb x (s2b ";, ")) with false.
  - cbn [negb]. destruct (span _ (v ++ w)) as [a b]. eexists. reflexivity.
  - symmetry. cbn. apply Bool.not_true_is_false. intro Z. apply S. left. unfold ascii_space. revert Z. repeat (rewrite ?Bool.orb_true_iff, ?N.eqb_eq). cbn. intuition lia.
Qed.
Lemma reply_resp t t' : reply_part t = reply_part t' -> x_resp t = x_resp t'.
Proof. intro H. now injection H. Qed.
(** The state of the transaction of [m] after its header block: [ls] are the lines seen, [n] bytes of the body and [k] of the coded
    body were seen. *)
Record ready (m : message) (ls : list hline) (n k : N) (t : tx) : Prop := {
  rd_method : x_method t = Some (rq_method (m_req m)); rd_methodn : x_methodn t = MKnown (rq_method (m_req m));
  rd_target : x_uri t = Some (rq_target (m_req m)); rd_protocol : t_proton (x_req t) = ProtoV1_1;
  rd_table : merged (map kv_of ls) (x_req t); rd_hpc : t_hpc (x_req t) = false;
  rd_elen : t_elen (x_req t) = n; rd_mlen : t_mlen (x_req t) = k; rd_cep : t_cep (x_req t) = CeNone; rd_prog : t_prog (x_req t) <> PComplete;
  rd_resp : reply_part t = reply_part tx_new; rd_09 : x_is09 t = false;
  rd_framing : match m_content m with
               | Plain b => (no_line "content-length" (rq_lines (m_req m)) /\ b = [] /\ t_coding (x_req t) = CdNoBody) \/
                            (~ no_line "content-length" (rq_lines (m_req m)) /\ t_coding (x_req t) = CdIdentity /\ t_clen (x_req t) = Some (blen b))
               | Chunked _ _ _ => t_coding (x_req t) = CdChunked
               end;
  rd_raw : x_raw t = Some (parse_uri uri_default (rq_target (m_req m)));
  rd_host : forall c l h p, origin_form (rq_target (m_req m)) c -> only_line "host" (rq_lines (m_req m)) l -> host_text (hl_value l) h p -> x_host t = Some (lowers h) /\ x_port t = p;
  rd_begun : t_prog (x_req t) <> PNotStarted }.
Lemma whole_digits v : v <> [] -> Forall digit v -> first_digit_run v v.
Proof. intros H D. exists [], []. rewrite app_nil_r. repeat split; try assumption; try constructor. discriminate. Qed.
Lemma the_header_fun hs k h h' : the_header hs k h -> the_header hs k h' -> h = h'.
Proof. intros A B. apply get_the_header in A, B. congruence. Qed.
Lemma first_or_none k ls : no_line k ls \/ exists l, first_line k ls l.
Proof.
  induction ls as [|l ls IH]; [left; constructor|]. destruct (bytes_eqb (lowers (hl_name l)) (lowers (s2b k))) eqn:E.
  - right. exists l, [], ls. repeat split; [|constructor]. apply name_eq_lowers. now apply bytes_eqb_eq.
  - assert (Nl : ~ named k l) by (intro H; apply name_eq_lowers in H; apply bytes_eqb_eq in H; congruence).
    destruct IH as [IH | (l' & b & a & -> & Hl & Hb)]; [left; now constructor|]. right. exists l', (l :: b), a. repeat split; [exact Hl|now constructor].
Qed.
Lemma first_not_none k ls l : first_line k ls l -> ~ no_line k ls.
Proof. intros (b & a & -> & Hl & _) H. apply Forall_app in H as [_ H]. inversion_clear H. contradiction. Qed.
Section Head.
Variables (e : env) (m : message) (t : tx).
Hypothesis G : good_message m.
Hypothesis K : keeps (with_line (m_req m) start_tx) t.
Hypothesis Ad : addressed start_tx (rq_target (m_req m)) t.
Let ls := rq_lines (m_req m).
Let T := add_headers SReq (map ph_of ls) (upd_dir SReq (set_t_prog PHeaders) t).
Lemma head_merged : merged (map kv_of ls) (x_req T).
Proof using G K.
  destruct K as (K1 & _). rewrite <- kv_ph_of. apply (add_headers_merged SReq); [cbn; rewrite K1; reflexivity..|].
  rewrite kv_ph_of. destruct G as ((_ & _ & _ & _ & Gl) & _). apply Forall_forall. intros x Hx. apply in_map_iff in Hx as (l & <- & Hl). rewrite Forall_forall in Gl.
  apply token_tight. apply (Gl l Hl).
Qed.
Lemma head_table : map view (t_headers (x_req T)) = merged_table (map kv_of ls).
Proof using G K. apply head_merged. Qed.
Lemma flagged_headers b : t_headers (x_req (if b : bool then add_flag MULTI_PACKET_HEAD T else T)) = t_headers (x_req T).
Proof using. destruct b; reflexivity. Qed.
Lemma head_settled : head_ok e T.
Proof using G K.
  intro b. pose proof (flagged_headers b) as Fh. set (X := if b then _ else T) in *. clearbody X. unfold process_request_headers.
  pose proof (framing_settles X) as F. destruct (request_framing X) as [t1 lg1]. cbn [fst] in F. pose proof (settles_trans _ _ _ F (host_settles (e_ip6 e) t1)) as H.
  destruct H as ((c & l & ct & E) & _). rewrite E. change (t_headers (set_t_ctype ct (set_t_clen l (set_t_coding c (x_req X))))) with (t_headers (x_req X)). rewrite Fh. destruct G as ((_ & _ & _ & _ & Gl) & _ & _ & _ & Ty & _).
  destruct (first_or_none "content-type" ls) as [Hn | (l0 & Hl)].
  - rewrite (get_lacks _ _ (table_lacks _ _ Gl head_table _ Hn)). reflexivity.
  - destruct (table_first _ _ Gl head_table _ _ Hl) as (h & Hh & (w & Ew) & _). rewrite (get_the_header _ _ _ Hh), Ew.
    destruct (Ty _ Hl) as (x & v & Ev & N1 & N2). rewrite Ev. destruct (content_type_good x v w) as [r ->]; [|assumption..|reflexivity].
    destruct Hl as (b1 & a1 & E1 & _). rewrite Forall_forall in Gl. assert (I : In l0 ls) by (rewrite E1; apply in_or_app; right; now left).
    destruct (Gl _ I) as (_ & _ & _ & _ & _ & S & _). apply (S _ _ Ev).
Qed.
Lemma mentions_head v w k : name_eq v (s2b k) -> mentions (v ++ w) (s2b k) \/ In 0 v.
Proof using.
  intro H. destruct (in_dec N.eq_dec 0 v) as [I | I]; [now right|left]. exists [], v, (nonul w). split; [|exact H]. cbn [app]. unfold nonul. rewrite filter_app. f_equal. clear H.
  induction v as [|x v IHv]; [reflexivity|]. cbn [filter]. destruct (x =? 0) eqn:E; [exfalso; apply I; left; lia|]. cbn [negb]. f_equal. apply IHv. intro Z. apply I. now right.
Qed.
Lemma head_ready t' : head_done e T t' -> ready m ls 0 0 t'.
Proof using G K Ad.
  intros (b & lg & t2 & E & ->). pose proof (process_settles _ _ _ _ _ _ E) as S. pose proof head_table as Ht. pose proof head_merged as Hm. pose proof (flagged_headers b) as Fh. cbn zeta in *.
  assert (Gl := G). destruct Gl as ((_ & _ & _ & _ & Gl) & Lb & _ & Fr & _ & Ce).
  assert (Sz' : match m_content m with
     | Plain b => (no_line "content-length" ls /\ b = [] /\ t_coding (x_req t2) = CdNoBody) \/
               (~ no_line "content-length" ls /\ t_coding (x_req t2) = CdIdentity /\ t_clen (x_req t2) = Some (blen b))
     | Chunked _ _ _ => t_coding (x_req t2) = CdChunked end).
  { destruct (m_content m) as [bd|cs la trl].
    - destruct Fr as [Sz Te]. assert (Lt : lacks (t_headers (x_req T)) (s2b "transfer-encoding")) by (eapply table_lacks; eassumption). rewrite <- Fh in Lt.
      destruct Sz as [(Hn & Eb) | (l & Hl & Nv & Dv & Lv)].
      + left. split; [exact Hn|]. split; [exact Eb|]. eapply framing_none; [exact E|exact Lt|]. rewrite Fh. eapply table_lacks; eassumption.
      + right. split; [exact (first_not_none _ _ _ Hl)|]. destruct (table_first _ _ Gl Ht _ _ Hl) as (h & Hh & _ & Ev). specialize (Ev eq_refl).
        rewrite <- Fh in Hh. destruct (framing_length _ _ _ _ _ _ _ _ E Lt Hh) as (F1 & F2 & _). assert (F3 : t_clen (x_req t2) = Some (blen bd)).
        { apply F1. exists (hl_value l). rewrite Ev. split; [now apply whole_digits|]. split; assumption. }
        rewrite F2, F3. split; reflexivity.
    - destruct Fr as (l & Hl & Hv). destruct (table_first _ _ Gl Ht _ _ Hl) as (h & Hh & (w & Ew) & _). rewrite <- Fh in Hh.
      apply (framing_chunked _ _ _ _ _ _ _ _ E Hh). rewrite Ew. destruct (mentions_head _ w _ Hv) as [Hm' | Hz]; [exact Hm'|]. exfalso.
      apply name_eq_lowers in Hv. apply (in_map lower) in Hz. unfold lowers in Hv. rewrite Hv in Hz. vm_compute in Hz. intuition discriminate. }
  destruct (add_headers_gains (map ph_of ls) (upd_dir SReq (set_t_prog PHeaders) t)) as ((r & h & E1) & A1 & A2 & A3 & A4 & A5 & A6 & A7). fold T in E1, A1, A2, A3, A4, A5, A6, A7.
  destruct Ad as [D1 D2 D3 D4 D5]. change (x_where (upd_dir SReq (set_t_prog PHeaders) t)) with (x_where t) in A6. injection A6 as A6 A8 A9. change (x_parsed T = x_parsed t) in A7.
  assert (Ho : forall c l h p, origin_form (rq_target (m_req m)) c -> only_line "host" ls l -> host_text (hl_value l) h p -> x_host t2 = Some (lowers h) /\ x_port t2 = p).
  { intros c l0 h0 p (Gt & (pa & Pa) & Et) Ol Hx. destruct (table_only _ _ Gl Ht _ _ Ol) as (hh & Hh & Ev). destruct (hostport_good (e_ip6 e) _ _ _ Hx) as (r0 & pn & bb & Ep & <-).
    pose proof (parse_uri_origin c pa Gt Pa) as Pu. rewrite <- Et in Pu. rewrite Pu in D4, D5.
    apply (process_host _ _ _ _ _ _ hh r0 h0 pn bb E).
    - destruct b; unfold parsed_hostname in *; cbn [x_parsed add_flag set_x_flags]; [change (x_parsed (add_flag MULTI_PACKET_HEAD T)) with (x_parsed T)|]; rewrite A7; now apply D4.
    - destruct b; unfold parsed_port_number in *; [change (x_parsed (add_flag MULTI_PACKET_HEAD T)) with (x_parsed T)|]; rewrite A7; now apply D5.
    - destruct b; [change (x_host T = None)|]; rewrite A8; exact D2.
    - destruct b; [change (x_port T = None)|]; rewrite A9; exact D3.
    - rewrite Fh. now apply get_the_header.
    - now rewrite Ev. }
  clear E. destruct S as ((c & l & ct & E) & S1 & S2 & S3 & S4 & S5 & S6).
  destruct K as (K1 & K2 & K3 & K4 & K5 & K6).
  assert (Ed : x_req (with_decompressors SReq (e_cfg e) t2) = set_t_cep CeNone (set_t_ce CeNone (x_req t2))).
  { unfold with_decompressors, initialize_decompressors. cbn [x_dir]. rewrite get_lacks.
    - destruct (decompression_enabled _ _); reflexivity.
    - rewrite E. match goal with |- lacks (t_headers (set_t_ctype _ (set_t_clen _ (set_t_coding _ ?z)))) _ => change (lacks (t_headers z) (s2b "content-encoding")) end. rewrite Fh. eapply table_lacks; eassumption. }
  assert (Xr : x_req (if b then add_flag MULTI_PACKET_HEAD T else T) = x_req T) by (destruct b; reflexivity).
  assert (Z1 : reply_part t2 = reply_part T) by (rewrite S1; destruct b; reflexivity).
  assert (Z2 : x_method t2 = x_method T) by (rewrite S2; destruct b; reflexivity).
  assert (Z3 : x_methodn t2 = x_methodn T) by (rewrite S3; destruct b; reflexivity).
  assert (Z4 : x_uri t2 = x_uri T) by (rewrite S4; destruct b; reflexivity).
  assert (Z5 : x_is09 t2 = x_is09 T) by (rewrite S5; destruct b; reflexivity).
  assert (Z6 : x_raw t2 = x_raw T) by (rewrite S6; destruct b; reflexivity).
  rewrite Xr in E. clear S1 S2 S3 S4 S5 S6.
  constructor; rewrite ?Ed; cbn.
  - rewrite Z2, A2. cbn. rewrite K3. reflexivity.
  - rewrite Z3, A3. cbn. rewrite K4. reflexivity.
  - rewrite Z4, A4. cbn. rewrite K5. reflexivity.
  - rewrite E, E1. cbn. rewrite K1. reflexivity.
  - rewrite E. exact Hm.
  - rewrite E, E1. cbn. rewrite K1. reflexivity.
  - rewrite E, E1. cbn. rewrite K1. reflexivity.
  - rewrite E, E1. cbn. rewrite K1. reflexivity.
  - reflexivity.
  - rewrite E, E1. cbn. discriminate.
  - change (reply_part t2 = reply_part tx_new). rewrite Z1, A1. change (reply_part t = reply_part tx_new). rewrite K2. reflexivity.
  - rewrite Z5, A5. cbn. rewrite K6. reflexivity.
  - exact Sz'.
  - rewrite Z6, A6. exact D1.
  - exact Ho.
  - rewrite E, E1. cbn. discriminate.
Qed.
End Head.

(** * The events of a message, as they come *)
Definition tr_of (es : list event) (tr : list (event * status)) : list (event * status) := rev (map (fun x => (x, SOk)) es) ++ tr.
Lemma tr_of_app es es' tr : tr_of (es ++ es') tr = tr_of es' (tr_of es tr).
Proof. unfold tr_of. now rewrite map_app, rev_app_distr, app_assoc. Qed.
Lemma tr_of_one x tr : tr_of [x] tr = (x, SOk) :: tr. Proof. reflexivity. Qed.
Lemma tr_of_piece i d tr : piece i d ++ tr = tr_of (body_piece i d) tr. Proof. reflexivity. Qed.
Lemma tr_of_pieces i d n tr : concat (repeat (piece i d) n) ++ tr = tr_of (concat (repeat (body_piece i d) n)) tr.
Proof.
  revert tr. induction n as [|n IH]; intro tr; [reflexivity|]. cbn [repeat concat]. rewrite tr_of_app, <- IH, <- tr_of_piece, !app_assoc. f_equal.
  clear. induction n as [|n IH]; cbn [repeat concat]; [now rewrite app_nil_r|]. rewrite <- app_assoc, <- IH. reflexivity.
Qed.
Definition ev_start (i : N) : event := mk_ev HRequestStart i PlNone.
Definition ev_complete (i : N) : event := mk_ev HRequestComplete i PlNone.
Definition ev_header (i : N) (h : bytes) : event := mk_ev HRequestHeaderData i (PlData h).
Definition line_events (i : N) (ps : list (bytes * bytes)) : list event :=
  [ev_start i] ++ map (fun nv => mk_ev HParam i (PlParam (fst nv) (snd nv))) ps ++ [mk_ev HRequestUriNormalize i PlNone; mk_ev HRequestLine i PlNone].
Lemma tr_of_line i ps tr : (mk_ev HRequestLine i PlNone, SOk) :: (mk_ev HRequestUriNormalize i PlNone, SOk) :: param_events i ps ++ (ev_start i, SOk) :: tr = tr_of (line_events i ps) tr.
Proof. unfold line_events. rewrite !tr_of_app. unfold tr_of at 1 2. rewrite map_map. reflexivity. Qed.
(** Up to the end of the header block, and up to a place in the body. *)
Definition head_events (cfg : config) (i : N) (m : message) (es : list event) : Prop :=
  exists hs, concat hs = block_text (rq_lines (m_req m)) ++ [13; 10] /\ es = line_events i (sent_params cfg (rq_target (m_req m))) ++ map (ev_header i) hs ++ [mk_ev HRequestHeaders i PlNone].
Definition body_events (cfg : config) (i : N) (m : message) (b : bytes) (es : list event) : Prop :=
  exists he bs, head_events cfg i m he /\ concat bs = b /\ ~ In [] bs /\ es = he ++ flat_map (fun b => body_piece i (PlData b)) bs.
(** All of the message was seen, nothing more was signalled. *)
Definition seen_events (cfg : config) (i : N) (m : message) (es : list event) : Prop :=
  exists be ts, body_events cfg i m (m_body m) be /\ trailer_events i (m_content m) ts /\
    es = be ++ ts ++ match m_content m with Plain (_ :: _) => body_piece i PlNone | _ => [] end.
Definition all_lines (m : message) : list hline := rq_lines (m_req m) ++ trailer_of (m_content m).
Lemma wadd_small n : n < 2 ^ 64 -> wadd n 0 = n.
Proof. intro H. unfold wadd. rewrite N.add_0_r. apply N.mod_small. exact H. Qed.
Lemma concat_le (cs : list chunk) : (length (concat (map ck_data cs)) <= length (chunks_text cs))%nat.
Proof.
  unfold chunks_text. induction cs as [|c cs IH]; [apply Nat.le_refl|]. cbn [map concat]. set (X := concat (map ck_data cs)) in *. set (Z := concat (map chunk_text cs)) in *. clearbody X Z.
  unfold chunk_text, data_text. rewrite !app_length. destruct (ck_data c); rewrite ?app_length; cbn [length]; lia.
Qed.
Lemma chunks_text_app a b : chunks_text (a ++ b) = chunks_text a ++ chunks_text b.
Proof. unfold chunks_text. now rewrite map_app, concat_app. Qed.
Lemma chunks_text_cons c l : chunks_text (c :: l) = size_line c ++ data_text c ++ chunks_text l.
Proof. unfold chunks_text. cbn [map concat]. unfold chunk_text. now rewrite <- app_assoc. Qed.
Lemma body_le c : (length (data_of c) <= length (coded_text c))%nat.
Proof. destruct c as [b|cs la tr]; [apply Nat.le_refl|]. cbn [data_of coded_text]. rewrite chunks_text_app, app_length. pose proof (concat_le cs). lia. Qed.
Lemma good_body_small m : good_message m -> blen (m_body m) < 2 ^ 64.
Proof. intros (_ & Lb & _). eapply N.le_lt_trans; [|exact Lb]. unfold m_body, blen. pose proof (body_le (m_content m)). lia. Qed.
Lemma located_parse tg : located tg (parse_uri uri_default tg).
Proof.
  split; intros c H.
  - destruct H as (Gt & (p & Hp) & ->). exact (parse_uri_origin c p Gt Hp).
  - destruct H as [Gp ->]. exact (parse_uri_parts c Gp).
Qed.
Lemma sent_reported cfg tg : reported cfg tg (sent_params cfg tg).
Proof.
  unfold reported, sent_params. destruct (_ && _); [|reflexivity]. intros c H.
  assert (E : u_query (parse_uri uri_default tg) = up_query c /\ good_tail c).
  { destruct (located_parse tg) as [L1 L2]. destruct H as [H | H]; [rewrite (L1 c H); split; [reflexivity|apply H]|rewrite (L2 c H); split; [reflexivity|apply H]]. }
  destruct E as [-> (_ & Gq)]. destruct (up_query c) as [q|]; [|reflexivity]. destruct (Gq q eq_refl) as [Nq _].
  intros segs Hs. destruct (urlenp_parameters (c_dcfg cfg) 38 true q segs Hs) as (_ & P1 & P2). change (urlenp_fresh (c_dcfg cfg) 38 true) with (urlenp_new (c_dcfg cfg)) in *.
  destruct (filter nonempty segs) as [|w ws]; [now apply P1|]. apply P2. discriminate.
Qed.
Lemma ready_done {cfg} m i t es : good_message m -> ready m (all_lines m) (blen (m_body m)) (blen (coded_text (m_content m))) t -> seen_events cfg i m es ->
  holds m (completed_tx t) /\ message_events cfg i m (es ++ concat (repeat (body_piece i PlNone) (closing t)) ++ [ev_complete i]).
Proof.
  intros Gm [R1 R2 R3 R4 [R5 _] _ R6 R7 R8 R9 R10 R11 R12 R13 R14 R15] (be & ts & (he & bs & (hs & H1 & ->) & H2 & H3 & ->) & Ht & ->). pose proof (good_body_small m Gm) as Ls. destruct Gm as (_ & Lb & _). split.
  - split; [|unfold completed_tx; destruct (request_has_body t); exact R10].
    unfold completed_tx. destruct (request_has_body t); constructor; cbn; try assumption; try reflexivity; try (rewrite ?R6, ?R7; now apply wadd_small); (eexists; split; [exact R13|apply located_parse]).
  - exists (sent_params cfg (rq_target (m_req m))), hs, bs, ts, (match m_content m with Plain (_ :: _) => S (closing t) | _ => closing t end). split; [apply sent_reported|]. split; [exact H1|]. split; [exact H2|]. split; [exact H3|]. split; [exact Ht|]. split.
    + unfold closing, request_has_body. destruct (m_content m) as [b|cs la tr]; cbn [end_signals].
      * destruct R12 as [(Hn & -> & ->) | (Hn & -> & _)]; [left; split; [exact Hn|reflexivity]|right; split; [exact Hn|]; destruct b; reflexivity].
      * rewrite R12. reflexivity.
    + unfold line_events. rewrite <- !app_assoc. unfold ev_header, ev_start, ev_complete. destruct (m_content m) as [[|b0 b]|cs la tr]; reflexivity.
Qed.
Lemma ready_closable m ls n k t : ready m ls n k t -> closable t.
Proof. intros [R1 R2 R3 R4 R5 Rh R6 R7 R8 R9 R10 R11 R12 R13 R14 R15]. constructor; try assumption. rewrite (reply_resp _ _ R10). discriminate. Qed.
Lemma ready_grow m ls n k j t : n + j < 2 ^ 64 -> k + j < 2 ^ 64 -> ready m ls n k t -> ready m ls (n + j) (k + j) (grow SReq j t).
Proof.
  intros L1 L2 [R1 R2 R3 R4 R5 Rh R6 R7 R8 R9 R10 R11 R12 R13 R14 R15]. constructor; cbn; try assumption; rewrite ?R6, ?R7; unfold wadd; apply N.mod_small; assumption.
Qed.
Lemma ready_spent m ls n k j t : k + j < 2 ^ 64 -> ready m ls n k t -> ready m ls n (k + j) (spent j t).
Proof.
  intros L [R1 R2 R3 R4 R5 Rh R6 R7 R8 R9 R10 R11 R12 R13 R14 R15]. constructor; cbn; try assumption. rewrite R7. unfold wadd. apply N.mod_small. exact L.
Qed.
Lemma ready_prog m ls n k t p : p <> PComplete -> p <> PNotStarted -> ready m ls n k t -> ready m ls n k (upd_dir SReq (set_t_prog p) t).
Proof. intros L L' [R1 R2 R3 R4 R5 Rh R6 R7 R8 R9 R10 R11 R12 R13 R14 R15]. constructor; cbn; assumption. Qed.
Lemma ready_more m ls ls' n k t : Forall good_hline (ls ++ ls') -> ready m ls n k t -> ready m (ls ++ ls') n k (add_headers SReq (map ph_of ls') t).
Proof.
  intros G [R1 R2 R3 R4 R5 Rh R6 R7 R8 R9 R10 R11 R12 R13 R14 R15]. pose proof (merged_more ls ls' t G R5) as Mm. destruct (add_headers_gains (map ph_of ls') t) as ((r & h & E1) & A1 & A2 & A3 & A4 & A5 & A6 & A7). injection A6 as A6 A8 A9.
  constructor; rewrite ?A1, ?A2, ?A3, ?A4, ?A5, ?A6, ?A8, ?A9; try assumption; try (rewrite E1; exact R9); rewrite E1; cbn; assumption.
Qed.

(** * A cut in a header block *)
Lemma head_cut ls : forall x y, Forall good_hline ls -> x ++ y = block_text ls ++ [13; 10] -> y <> [] -> y <> [10] ->
  exists ls1 ls2 q, ls = ls1 ++ ls2 /\ x = block_text ls1 ++ q /\ q ++ y = block_text ls2 ++ [13; 10] /\ left_over ls1 q /\ (ls2 <> [] \/ (q = [] /\ ls = [])).
Proof.
  induction ls as [|l ls IH]; intros x y G E Ny N1.
  - exists [], [], []. cbn in E. destruct x as [|x1 [|x2 [|]]]; cbn in E; try (injection E; intros; subst; congruence).
    repeat split; [exact E|right; split; reflexivity|right; split; reflexivity].
  - inversion_clear G as [|? ? Gl Gs]. rewrite block_text_cons, <- app_assoc in E. apply app_split in E as [(m & E1 & E2) | (m & E1 & E2)].
    + destruct x as [|x0 x].
      * exists [], (l :: ls), []. cbn [app] in E1. subst m. split; [reflexivity|]. split; [reflexivity|]. split; [cbn [app]; rewrite E2, block_text_cons; now rewrite <- app_assoc|]. split; [right; split; reflexivity|left; discriminate].
      * exists [], (l :: ls), (x0 :: x). split; [reflexivity|]. split; [reflexivity|]. split; [rewrite E2, block_text_cons, E1; now rewrite <- !app_assoc|]. split; [|left; discriminate].
        left. apply (pd_line SReq l); [exact Gl|left; now exists m|discriminate].
    + destruct m as [|m0 m].
      * rewrite app_nil_r in E1. subst x. exists [], (l :: ls), (hl_text l). split; [reflexivity|]. split; [reflexivity|]. split; [cbn [app] in E2; rewrite <- E2, block_text_cons; now rewrite <- app_assoc|]. split; [|left; discriminate].
        left. apply (pd_line SReq l); [exact Gl|left; exists []; now rewrite app_nil_r|]. unfold hl_text. destruct Gl as (Nn & _). destruct (hl_name l); [congruence|discriminate].
      * destruct (IH (m0 :: m) y Gs) as (ls1 & ls2 & q & -> & E3 & E4 & E5 & E6); [now symmetry|exact Ny|exact N1|].
        exists (l :: ls1), ls2, q. split; [reflexivity|]. split; [rewrite E1, E3, block_text_cons; now rewrite <- app_assoc|]. split; [exact E4|]. split; [|destruct E6 as [E6 | [-> Z]]; [now left|]; apply app_eq_nil in Z as [-> ->]; discriminate E3].
        destruct E5 as [E5 | [-> ->]]; [now left|]. discriminate E3.
Qed.

(** * Between calls *)
Definition after_line (m : message) : bytes := block_text (rq_lines (m_req m)) ++ [13; 10] ++ content_text (m_content m).
Lemma message_text_line m : message_text m = request_line_text (m_req m) ++ after_line m.
Proof. unfold message_text, request_text, after_line. now rewrite <- !app_assoc. Qed.
Lemma texts_cons m ms : texts (m :: ms) = message_text m ++ texts ms. Proof. reflexivity. Qed.
(** [p] is the part of the next request line that was seen already. *)
Definition begun (p : bytes) (ms : list message) : Prop :=
  match ms with [] => p = [] | m :: _ => exists q, p ++ q = request_line_text (m_req m) /\ q <> [] end.
Definition ev_trailer (i : N) (h : bytes) : event := mk_ev HRequestTrailerData i (PlData h).
Definition datas (cs : list chunk) : bytes := concat (map ck_data cs).
Inductive paused (cfg : config) (i : N) (C : ctx) (tr : list (event * status)) : list message -> bytes -> st -> Prop :=
| pa_idle ms s : resting [] i tr C s -> paused cfg i C tr ms (texts ms) s
| pa_line m ms p q s : p ++ q = request_line_text (m_req m) -> q <> [] -> mile StLine None p None i start_tx (tr_of [ev_start i] tr) C s ->
    paused cfg i C tr (m :: ms) (q ++ after_line m ++ texts ms) s
| pa_headers m ms ls1 ls2 p q t hs s : rq_lines (m_req m) = ls1 ++ ls2 -> keeps (with_line (m_req m) start_tx) t /\ addressed start_tx (rq_target (m_req m)) t ->
    p ++ q = block_text ls2 ++ [13; 10] -> q <> [] -> ls2 <> [] \/ (p = [] /\ rq_lines (m_req m) = []) -> concat hs = block_text ls1 ++ p ->
    mile StHeaders (Some HRequestHeaderData) [] (Some p) i (add_headers SReq (map ph_of ls1) (upd_dir SReq (set_t_prog PHeaders) t))
      (tr_of (line_events i (sent_params cfg (rq_target (m_req m))) ++ map (ev_header i) hs) tr) C s ->
    paused cfg i C tr (m :: ms) (q ++ content_text (m_content m) ++ texts ms) s
| pa_body m ms b1 b2 t es s : m_content m = Plain (b1 ++ b2) -> b2 <> [] -> ready m (rq_lines (m_req m)) (blen b1) (blen b1) t -> body_events cfg i m b1 es ->
    mile StIdentity None [] None i t (tr_of es tr) C s -> d_left (s_req s) = Some (blen b2) ->
    paused cfg i C tr (m :: ms) (b2 ++ texts ms) s
| pa_length m ms cs la trl ds l t es s : m_content m = Chunked cs la trl -> cs ++ [la] = ds ++ l -> l <> [] ->
    ready m (rq_lines (m_req m)) (blen (datas ds)) (blen (chunks_text ds)) t -> body_events cfg i m (datas ds) es ->
    mile StChunkedLength None [] None i t (tr_of es tr) C s ->
    paused cfg i C tr (m :: ms) (chunks_text l ++ block_text trl ++ [13; 10] ++ texts ms) s
| pa_chunk m ms cs la trl ds c l d1 d2 t es s : m_content m = Chunked cs la trl -> cs ++ [la] = ds ++ c :: l -> ck_data c = d1 ++ d2 -> d2 <> [] ->
    ready m (rq_lines (m_req m)) (blen (datas ds ++ d1)) (blen (chunks_text ds ++ size_line c ++ d1)) t -> body_events cfg i m (datas ds ++ d1) es ->
    mile StChunkedData None [] None i t (tr_of es tr) C s -> d_chunk (s_req s) = Some (blen d2) ->
    paused cfg i C tr (m :: ms) (d2 ++ [13; 10] ++ chunks_text l ++ block_text trl ++ [13; 10] ++ texts ms) s
| pa_crlf m ms cs la trl ds c l t es s : m_content m = Chunked cs la trl -> cs ++ [la] = ds ++ c :: l -> ck_data c <> [] ->
    ready m (rq_lines (m_req m)) (blen (datas ds ++ ck_data c)) (blen (chunks_text ds ++ size_line c ++ ck_data c)) t -> body_events cfg i m (datas ds ++ ck_data c) es ->
    mile StChunkedDataEnd None [] None i t (tr_of es tr) C s ->
    paused cfg i C tr (m :: ms) ([13; 10] ++ chunks_text l ++ block_text trl ++ [13; 10] ++ texts ms) s
| pa_trailer m ms cs la trl ls1 ls2 p q t es hs s : m_content m = Chunked cs la trl -> trl = ls1 ++ ls2 ->
    p ++ q = block_text ls2 ++ [13; 10] -> q <> [] -> ls2 <> [] \/ (p = [] /\ trl = []) -> concat hs = block_text ls1 ++ p ->
    ready m (rq_lines (m_req m) ++ ls1) (blen (m_body m)) (blen (coded_text (m_content m))) t -> t_prog (x_req t) = PTrailer -> body_events cfg i m (m_body m) es ->
    mile StHeaders (Some HRequestTrailerData) [] (Some p) i t (tr_of (es ++ map (ev_trailer i) hs) tr) C s ->
    paused cfg i C tr (m :: ms) (q ++ texts ms) s
| pa_final m m' ms p q t es s : p ++ q = request_line_text (m_req m') -> p <> [] -> q <> [] ->
    ready m (all_lines m) (blen (m_body m)) (blen (coded_text (m_content m))) t -> seen_events cfg i m es ->
    mile StFinalize None p None i t (tr_of es tr) C s ->
    paused cfg i C tr (m :: m' :: ms) (q ++ after_line m' ++ texts ms) s.
Arguments pa_idle {cfg}. Arguments pa_line {cfg}. Arguments pa_headers {cfg}. Arguments pa_body {cfg}. Arguments pa_length {cfg}.
Arguments pa_chunk {cfg}. Arguments pa_crlf {cfg}. Arguments pa_trailer {cfg}. Arguments pa_final {cfg}.
(** The messages that were completed on the way. *)
Inductive told (cfg : config) : N -> ctx -> list (event * status) -> list message -> N -> ctx -> list (event * status) -> Prop :=
| told_nil i C tr : told cfg i C tr [] i C tr
| told_cons i C tr m t es ms i' C' tr' : holds m t -> message_events cfg i m es -> told cfg (i + 1) (next_ctx i t C) (tr_of es tr) ms i' C' tr' -> told cfg i C tr (m :: ms) i' C' tr'.
Arguments told_nil {cfg}. Arguments told_cons {cfg}.
Definition outcome (e : env) (i : N) (C : ctx) (tr : list (event * status)) (ms : list message) (S : bytes) (s : st) : Prop :=
  exists s' done ms' i' C' tr', runs e s s' /\ ms = done ++ ms' /\ told (e_cfg e) i C tr done i' C' tr' /\ paused (e_cfg e) i' C' tr' ms' S s'.
Lemma outcome_next e i C tr ms S s s1 : step SReq e s = (ROk None, s1) -> outcome e i C tr ms S s1 -> outcome e i C tr ms S s.
Proof. intros H (s' & d & ms' & i' & C' & tr' & R & rest). exists s', d, ms', i', C', tr'. split; [exact (runs_next _ _ _ _ H R)|exact rest]. Qed.
Lemma outcome_stop e i C tr ms S s s' : runs e s s' -> paused (e_cfg e) i C tr ms S s' -> outcome e i C tr ms S s.
Proof. intros R P. exists s', [], ms, i, C, tr. split; [exact R|]. split; [reflexivity|]. split; [constructor|exact P]. Qed.
Lemma outcome_told e i C tr m t es ms S s : holds m t -> message_events (e_cfg e) i m es -> outcome e (i + 1) (next_ctx i t C) (tr_of es tr) ms S s -> outcome e i C tr (m :: ms) S s.
Proof. intros H M (s' & d & ms' & i' & C' & tr' & R & -> & T & P). exists s', (m :: d), ms', i', C', tr'. split; [exact R|]. split; [reflexivity|]. split; [econstructor; eassumption|exact P]. Qed.

(** There is room for [ms]. *)
Record room (e : env) (i : N) (C : ctx) (ms : list message) : Prop := {
  rm_good : Forall good_message ms; rm_limit : Forall (fun m => blen (request_text (m_req m)) <= c_field_limit (e_cfg e) /\ blen (block_text (trailer_of (m_content m))) + 2 <= c_field_limit (e_cfg e)) ms;
  rm_idx : i + N.of_nat (length ms) < 2 ^ 64; rm_size : N.of_nat (cx_size C) + N.of_nat (length ms) <= c_max_tx (e_cfg e);
  rm_free : forall j, i < j -> cx_table C j = None; rm_awake : d_status (snd (fst (cx_rest C))) <> SsDataOther }.
Lemma room_next e i C t m ms : room e i C (m :: ms) -> room e (i + 1) (next_ctx i t C) ms.
Proof.
  intros [R1 R2 R3 R4 R5 R6]. inversion_clear R1. inversion_clear R2. cbn [length] in *. constructor; try assumption; cbn [cx_size cx_table next_ctx]; try lia.
  intros j Hj. destruct (j =? i) eqn:E; [lia|]. apply R5. lia.
Qed.
Definition clean_at (ms : list message) (S : bytes) : Prop := forall before m after y, ms = before ++ m :: after -> no_cut (m_content m) y -> S <> y ++ texts after.
Lemma clean_next m ms S : clean_at (m :: ms) S -> clean_at ms S.
Proof. intros H b x a y ->. apply (H (m :: b) x a y). reflexivity. Qed.
Definition idle_goes (e : env) (ms : list message) : Prop := forall i C tr p s a rest k cb S, room e i C ms -> clean_at ms S -> resting p i tr C s -> rest_of a rest k cb s ->
  begun p ms -> p ++ rest ++ S = texts ms -> rest <> [] -> outcome e i C tr ms S s.
Section From.
Variables (e : env) (m : message) (ms : list message).
Hypothesis Y : yes e.
Hypothesis IH : idle_goes e ms.
Variables (i : N) (C : ctx) (tr : list (event * status)).
Hypothesis Rm : room e i C (m :: ms).
Lemma rm_good1 : good_message m. Proof using Rm. destruct Rm as [G _ _ _ _ _]. now inversion_clear G. Qed.
Lemma rm_next_free : cx_table C (i + 1) = None. Proof using Rm. apply (rm_free _ _ _ _ Rm). lia. Qed.
Lemma rm_next_idx : i + 1 < 2 ^ 64. Proof using Rm. pose proof (rm_idx _ _ _ _ Rm) as H. cbn [length] in H. lia. Qed.
Lemma rm_line m' : In m' (m :: ms) -> blen (request_line_text (m_req m')) <= c_field_limit (e_cfg e).
Proof using Rm.
  intro I. pose proof (rm_limit _ _ _ _ Rm) as H. rewrite Forall_forall in H. specialize (H _ I). destruct H as [H _]. unfold request_text, blen in *. rewrite !app_length in H. lia.
Qed.
Lemma rm_good_in m' : In m' (m :: ms) -> good_message m'.
Proof using Rm. intro I. pose proof (rm_good _ _ _ _ Rm) as H. rewrite Forall_forall in H. now apply H. Qed.
Lemma no_lf_part p q r : good_request r -> p ++ q = request_line_text r -> q <> [] -> ~ In 10 p.
Proof using.
  intros G E Nq I. destruct (exists_last Nq) as (q' & x & ->). rewrite app_assoc in E. destruct (line_no_lf _ G) as (l & E2 & Nl).
  rewrite E2 in E. apply app_inj_tail in E as [E _]. apply Nl. rewrite <- E. apply in_or_app. now left.
Qed.
Lemma from_final S p s a rest k cb t es : clean_at (m :: ms) S -> ready m (all_lines m) (blen (m_body m)) (blen (coded_text (m_content m))) t -> seen_events (e_cfg e) i m es -> mile StFinalize None p None i t (tr_of es tr) C s ->
  rest_of a rest k cb s -> begun p ms -> p ++ rest ++ S = texts ms -> p = [] \/ (k = 0 /\ rest <> []) -> outcome e i C tr (m :: ms) S s.
Proof using Y IH Rm.
  intros Cl Rd Es M R Bg E Hk. destruct (ready_done m i t es rm_good1 Rd Es) as [Ho Me].
  assert (En : forall t0, (ev_complete i, SOk) :: concat (repeat (piece i PlNone) (closing t)) ++ t0 = tr_of (concat (repeat (body_piece i PlNone) (closing t)) ++ [ev_complete i]) t0) by (intro t0; rewrite tr_of_app, <- tr_of_pieces; reflexivity).
  destruct rest as [|r0 rest].
  - destruct Hk as [-> | [_ Hk]]; [|congruence]. cbn [app] in E.
    destruct (ph_final_end e C s a _ k cb i t Y M (ready_closable _ _ _ _ _ Rd) rm_next_free rm_next_idx R) as (s1 & H1 & R1 & Q1).
    apply (outcome_next _ _ _ _ _ _ _ _ H1). apply (outcome_told _ _ _ _ _ _ _ _ _ _ Ho Me). destruct (ph_rest e _ _ _ s1 a k cb Y Q1 R1) as (s2 & H2 & Q2).
    apply (outcome_stop _ _ _ _ _ _ _ _ H2). rewrite E. constructor. rewrite tr_of_app, <- En. exact Q2.
  - assert (Ems : exists m' ms', ms = m' :: ms') by (destruct ms as [|m' ms']; [destruct p; discriminate E|now exists m', ms']). destruct Ems as (m' & ms' & Ems).
    assert (I' : In m' (m :: ms)) by (rewrite Ems; right; now left). rewrite Ems in Bg, E. destruct Bg as (q & Eq & Nq).
    assert (G' : good_request (m_req m')) by now apply rm_good_in.
    rewrite texts_cons, message_text_line, <- Eq, <- !app_assoc in E. apply app_inv_head in E.
    apply app_split in E as [(q' & E1 & E2) | (q' & E1 & E2)].
    + destruct q' as [|x q'].
      * rewrite app_nil_r in E1. subst q. rewrite <- (app_nil_r (r0 :: rest)) in R.
        destruct (ph_final_line e C s a _ p (r0 :: rest) [] (m_req m') k cb i t Y M (ready_closable _ _ _ _ _ Rd) rm_next_free rm_next_idx G' R Eq ltac:(discriminate)) as (s1 & H1 & R1 & Q1); [destruct Hk as [Hk | [Hk _]]; [now left|now right]|now apply rm_line|].
        apply (outcome_next _ _ _ _ _ _ _ _ H1). apply (outcome_told _ _ _ _ _ _ _ _ _ _ Ho Me). rewrite app_nil_r in R1.
        apply (IH _ _ _ p s1 a (r0 :: rest) k cb S); [exact (room_next _ _ _ _ _ _ Rm)|exact (clean_next _ _ _ Cl)|rewrite tr_of_app, <- En; exact Q1|exact R1|rewrite Ems; exists (r0 :: rest); split; [exact Eq|discriminate]| |discriminate].
        rewrite Ems, texts_cons, message_text_line, <- Eq, <- !app_assoc. f_equal. f_equal. exact E2.
      * destruct (ph_final_part e C s a _ p (r0 :: rest) k cb i t M R) as (s1 & H1 & Q1); [|discriminate| |].
        { intro I. apply (no_lf_part (p ++ r0 :: rest) (x :: q') (m_req m') G'); [rewrite <- app_assoc, <- E1; exact Eq|discriminate|apply in_or_app; now right]. }
        { etransitivity; [|now apply (rm_line m')]. rewrite <- Eq, E1. unfold blen. rewrite !app_length. lia. }
        apply (outcome_stop _ _ _ _ _ _ _ _ H1). subst S. rewrite Ems. apply (pa_final _ _ _ m m' ms' (p ++ r0 :: rest) (x :: q') t es); try assumption; [rewrite <- app_assoc, <- E1; exact Eq|destruct p; discriminate|discriminate].
    + rewrite E1 in R.
      destruct (ph_final_line e C s a _ p q q' (m_req m') k cb i t Y M (ready_closable _ _ _ _ _ Rd) rm_next_free rm_next_idx G' R Eq Nq) as (s1 & H1 & R1 & Q1); [destruct Hk as [Hk | [Hk _]]; [now left|now right]|now apply rm_line|].
      apply (outcome_next _ _ _ _ _ _ _ _ H1). apply (outcome_told _ _ _ _ _ _ _ _ _ _ Ho Me). rewrite <- E1 in R1.
      apply (IH _ _ _ p s1 a (r0 :: rest) k cb S); [exact (room_next _ _ _ _ _ _ Rm)|exact (clean_next _ _ _ Cl)|rewrite tr_of_app, <- En; exact Q1|exact R1|rewrite Ems; exists q; split; assumption| |discriminate].
      rewrite Ems, E1, texts_cons, message_text_line, <- Eq, <- !app_assoc. f_equal. f_equal. symmetry. exact E2.
Qed.
Lemma flat_map_snoc {A B} (f : A -> list B) l x : flat_map f (l ++ [x]) = flat_map f l ++ f x.
Proof using. rewrite flat_map_app. cbn [flat_map]. now rewrite app_nil_r. Qed.
Lemma body_events_more b c es : body_events (e_cfg e) i m b es -> c <> [] -> body_events (e_cfg e) i m (b ++ c) (es ++ body_piece i (PlData c)).
Proof using.
  intros (he & bs & H1 & H2 & H3 & ->) Nc. exists he, (bs ++ [c]). split; [exact H1|]. split; [rewrite concat_app, H2; cbn; now rewrite app_nil_r|]. split.
  - intro I. apply in_app_or in I as [I | [I | []]]; [contradiction|congruence].
  - now rewrite flat_map_snoc, app_assoc.
Qed.
Lemma begun_nil l : begun [] l.
Proof using. destruct l as [|m' ms']; [reflexivity|]. eexists. split; [reflexivity|]. unfold request_line_text. destruct (rq_method (m_req m')); discriminate. Qed.
Lemma ready_lines n k t : m_content m = Plain (m_body m) -> ready m (rq_lines (m_req m)) n k t -> ready m (all_lines m) n k t.
Proof using. intros E R. unfold all_lines. rewrite E. cbn [trailer_of]. now rewrite app_nil_r. Qed.
Lemma from_body S s a rest k cb t b1 b2 es : clean_at (m :: ms) S -> m_content m = Plain (b1 ++ b2) -> b2 <> [] -> ready m (rq_lines (m_req m)) (blen b1) (blen b1) t -> body_events (e_cfg e) i m b1 es ->
  mile StIdentity None [] None i t (tr_of es tr) C s -> d_left (s_req s) = Some (blen b2) -> rest_of a rest k cb s -> rest ++ S = b2 ++ texts ms -> outcome e i C tr (m :: ms) S s.
Proof using Y IH Rm.
  intros Cl Ec Nb Rd Be M L R E. destruct rm_good1 as (_ & Lb & _). assert (Eb : m_body m = b1 ++ b2) by (unfold m_body; rewrite Ec; reflexivity). rewrite Ec in Lb. cbn [coded_text] in Lb. unfold blen in Lb. rewrite app_length in Lb.
  assert (Fin : forall tail, rest = b2 ++ tail -> texts ms = tail ++ S -> outcome e i C tr (m :: ms) S s).
  { intros tail -> Et. destruct (ph_body_last e C s a (tr_of es tr) b2 tail k cb i t Y M (rd_cep _ _ _ _ _ Rd) L R) as (s1 & H1 & R1 & M1); [destruct b2; [congruence|unfold blen; cbn; lia]|].
    apply (outcome_next _ _ _ _ _ _ _ _ H1). rewrite !tr_of_piece, <- !tr_of_app in M1. eapply from_final with (p := []); [exact Cl| | |exact M1|exact R1|apply begun_nil|symmetry; exact Et|now left].
    - apply ready_lines; [rewrite Eb; exact Ec|]. rewrite Ec, Eb. cbn [coded_text].
      assert (Rd2 : ready m (rq_lines (m_req m)) (blen (b1 ++ b2)) (blen (b1 ++ b2)) (grow SReq (blen b2) t)).
      { replace (blen (b1 ++ b2)) with (blen b1 + blen b2) by (unfold blen; rewrite app_length; lia). apply ready_grow; [unfold blen; lia..|exact Rd]. }
      apply (ready_grow m _ _ _ 0) in Rd2; [rewrite N.add_0_r in Rd2; exact Rd2|rewrite N.add_0_r; unfold blen; rewrite app_length; exact Lb..].
    - exists (es ++ body_piece i (PlData b2)), []. split; [rewrite Eb; now apply body_events_more|]. rewrite Ec. split; [reflexivity|]. rewrite app_assoc. destruct b1, b2; try congruence; reflexivity. }
  apply app_split in E as [(q & E1 & E2) | (q & E1 & E2)].
  - destruct q as [|x q].
    + rewrite app_nil_r in E1. subst b2. apply (Fin []); [now rewrite app_nil_r|symmetry; exact E2].
    + destruct rest as [|r0 rest].
      * destruct (ph_body_wait e C s a _ k cb i t _ M L R) as (s1 & H1 & M1 & L1). apply (outcome_stop _ _ _ _ _ _ _ _ H1). cbn [app] in E1. subst b2 S. eapply pa_body; eassumption.
      * destruct (ph_body_part e C s a (tr_of es tr) (r0 :: rest) k cb i t _ Y M (rd_cep _ _ _ _ _ Rd) L R) as (s1 & H1 & M1 & L1); [rewrite E1; unfold blen; rewrite app_length; cbn [length]; lia|].
        apply (outcome_stop _ _ _ _ _ _ _ _ H1). subst S. rewrite tr_of_piece, <- tr_of_app in M1.
        apply (pa_body _ _ _ m ms (b1 ++ r0 :: rest) (x :: q) (grow SReq (blen (r0 :: rest)) t) (es ++ body_piece i (PlData (r0 :: rest)))); [now rewrite Ec, E1, <- app_assoc|discriminate| |apply body_events_more; [exact Be|discriminate]|exact M1|].
        { replace (blen (b1 ++ r0 :: rest)) with (blen b1 + blen (r0 :: rest)) by (unfold blen; rewrite app_length; lia). apply ready_grow; [rewrite E1, app_length in Lb; unfold blen; lia..|exact Rd]. }
        rewrite L1. f_equal. rewrite E1. unfold blen. rewrite app_length. lia.
  - apply (Fin q); assumption.
Qed.
Lemma content_plain b : m_content m = Plain b -> content_text (m_content m) = b /\ m_body m = b /\ coded_text (m_content m) = b.
Proof using. intro E. unfold m_body. rewrite E. unfold content_text. cbn. rewrite app_nil_r. repeat split. Qed.
Lemma add_headers_app l1 l2 t : add_headers SReq (l1 ++ l2) t = add_headers SReq l2 (add_headers SReq l1 t).
Proof using. unfold add_headers. apply fold_left_app. Qed.
(** The byte behind an empty line. *)
Lemma next_byte tail S : texts ms = tail ++ S -> match tail with x :: _ => x <> 32 | [] => True end.
Proof using Rm.
  intro Et. destruct tail as [|x tail]; [exact I|]. assert (Ems : exists m' ms', ms = m' :: ms') by (clear - Et; destruct ms as [|m' ms']; [discriminate Et|now exists m', ms']). destruct Ems as (m' & ms' & Ems).
  assert (I' : In m' (m :: ms)) by (rewrite Ems; right; now left). apply rm_good_in in I'. destruct I' as ((Hm & _) & _). destruct (method_visible _ Hm) as [Hn Hv].
  rewrite Ems, texts_cons, message_text_line in Et. unfold request_line_text in Et. destruct (rq_method (m_req m')) as [|c0 mm]; [congruence|]. cbn [app] in Et. injection Et as Ex _. subst c0.
  inversion_clear Hv as [|? ? Hx _]. revert Hx. unfold visible. lia.
Qed.
Section Chunks.
Variables (cs : list chunk) (la : chunk) (trl : list hline).
Hypothesis Ec : m_content m = Chunked cs la trl.
Lemma chunks_good : Forall good_chunk (cs ++ [la]) /\ Forall (fun c => ck_data c <> []) cs /\ ck_data la = [] /\ Forall good_hline trl.
Proof using Rm Ec. destruct rm_good1 as (_ & _ & G & _). rewrite Ec in G. exact G. Qed.
Lemma coded_small : blen (chunks_text (cs ++ [la])) < 2 ^ 64.
Proof using Rm Ec. destruct rm_good1 as (_ & L & _). rewrite Ec in L. exact L. Qed.
Lemma chunk_pos ds c l : cs ++ [la] = ds ++ c :: l -> (ck_data c = [] /\ c = la /\ l = [] /\ ds = cs) \/ (ck_data c <> [] /\ exists c2, l = c2 ++ [la] /\ cs = ds ++ c :: c2).
Proof using Rm Ec.
  intro E. destruct chunks_good as (_ & Nd & Ld & _). destruct l as [|x l _] using rev_ind.
  - apply app_inj_tail in E as [-> ->]. left. repeat split. exact Ld.
  - rewrite app_comm_cons, app_assoc in E. apply app_inj_tail in E as [E <-]. right. split; [|exists l; split; [reflexivity|exact E]].
    rewrite E in Nd. rewrite Forall_forall in Nd. apply Nd. apply in_or_app. right. now left.
Qed.
Lemma datas_app a b : datas (a ++ b) = datas a ++ datas b. Proof using. unfold datas. now rewrite map_app, concat_app. Qed.
Lemma datas_all : datas cs = m_body m. Proof using Ec. unfold m_body. rewrite Ec. reflexivity. Qed.
Lemma from_trailer S s a rest k t p q ls1 ls2 es hs : clean_at (m :: ms) S -> trl = ls1 ++ ls2 ->
  opt_text p ++ q = block_text ls2 ++ [13; 10] -> q <> [] -> ls2 <> [] \/ (opt_text p = [] /\ trl = []) -> concat hs = block_text ls1 ++ opt_text p ->
  ready m (rq_lines (m_req m) ++ ls1) (blen (m_body m)) (blen (coded_text (m_content m))) t -> t_prog (x_req t) = PTrailer -> body_events (e_cfg e) i m (m_body m) es ->
  mile StHeaders (Some HRequestTrailerData) [] p i t (tr_of (es ++ map (ev_trailer i) hs) tr) C s ->
  rest_of a rest k k s -> rest ++ S = q ++ texts ms -> outcome e i C tr (m :: ms) S s.
Proof using Y IH Rm Ec.
  intros Cl El Eq Nq Hp Eh Rd Tp Be M R E. pose proof chunks_good as (_ & _ & _ & Gt). rewrite El in Gt.
  assert (Gh : Forall good_hline (rq_lines (m_req m))) by (destruct rm_good1 as ((_ & _ & _ & _ & Gl) & _); exact Gl).
  assert (Ga : forall l1, (exists l2, ls2 = l1 ++ l2) -> Forall good_hline ((rq_lines (m_req m) ++ ls1) ++ l1)).
  { intros l1 (l2 & ->). rewrite <- app_assoc. apply Forall_app. split; [exact Gh|]. rewrite app_assoc in Gt. apply Forall_app in Gt. apply Gt. }
  assert (Fin : forall tail, rest = q ++ tail -> texts ms = tail ++ S -> outcome e i C tr (m :: ms) S s).
  { intros tail -> Et.
    assert (D : exists s' k', step SReq e s = (ROk None, s') /\ rest_of a tail k' k' s' /\
       mile StFinalize None [] None i (add_headers SReq (map ph_of ls2) t) (tr_of ((es ++ map (ev_trailer i) hs) ++ [ev_trailer i q] ++ [mk_ev HRequestTrailer i PlNone]) tr) C s').
    { destruct ls2 as [|l ls2].
      - destruct Hp as [Hp | [Hp Hl]]; [congruence|]. rewrite Hp in Eq. cbn in Eq. subst q.
        destruct (ph_trailer_none e C s a _ p tail k i _ Y M Hp (rd_hpc _ _ _ _ _ Rd) Tp R) as (s' & H1 & H2 & H3); [exact (next_byte _ _ Et)|].
        exists s', (k + 2). split; [exact H1|]. split; [exact H2|]. rewrite tr_of_app. exact H3.
      - apply Forall_app in Gt as [_ Gt]. destruct (ph_trailer e C s a (l :: ls2) _ p q tail k i _ Y Gt ltac:(discriminate) M (rd_hpc _ _ _ _ _ Rd) Tp R Nq Eq) as (s' & H1 & H2 & H3).
        exists s', (k + blen q). split; [exact H1|]. split; [exact H2|]. rewrite tr_of_app. exact H3. }
    destruct D as (s1 & k' & H1 & R1 & M1). apply (outcome_next _ _ _ _ _ _ _ _ H1).
    eapply from_final with (p := []); [exact Cl| | |exact M1|exact R1|apply begun_nil|symmetry; exact Et|now left].
    - replace (all_lines m) with ((rq_lines (m_req m) ++ ls1) ++ ls2) by (unfold all_lines; rewrite Ec; cbn [trailer_of]; now rewrite El, app_assoc). apply ready_more; [apply Ga; exists []; now rewrite app_nil_r|exact Rd].
    - eexists es, _. split; [exact Be|]. rewrite Ec. split; [exists (hs ++ [q]); split; [|reflexivity]|].
      + rewrite concat_app, Eh, El. cbn [concat]. rewrite app_nil_r, <- app_assoc, Eq. unfold block_text. now rewrite map_app, concat_app, <- app_assoc.
      + rewrite map_app. cbn [map]. rewrite app_nil_r, <- !app_assoc. reflexivity. }
  apply app_split in E as [(y & E1 & E2) | (y & E1 & E2)]; [|apply (Fin y); assumption].
  destruct y as [|y0 y]; [rewrite app_nil_r in E1; apply (Fin []); [now rewrite app_nil_r|symmetry; exact E2]|].
  rewrite E1, app_assoc in Eq. apply Forall_app in Gt as [_ Gt]. destruct (head_cut ls2 (opt_text p ++ rest) (y0 :: y) Gt Eq) as (l1 & l2 & q' & -> & E3 & E4 & E5 & E6); [discriminate| |].
  { intro Z. rewrite Z in E2. apply (Cl [] m ms [10] eq_refl); [rewrite Ec; apply nc_trailer|exact E2]. }
  apply Forall_app in Gt as [Gl1 _].
  destruct (ph_headers_part e C s a l1 _ p rest q' k i _ HRequestTrailerData Y Gl1 M (rd_hpc _ _ _ _ _ Rd) R E3 E5) as (s1 & H1 & M1).
  { pose proof (rm_limit _ _ _ _ Rm) as Lim. inversion_clear Lim as [|? ? [_ Lim1] _]. etransitivity; [|exact Lim1]. rewrite Ec, El. cbn [trailer_of]. unfold block_text in *. rewrite !map_app, !concat_app.
    apply (f_equal (@length N)) in E4. rewrite !app_length in E4. cbn [length] in E4. unfold blen. rewrite !app_length. lia. }
  apply (outcome_stop _ _ _ _ _ _ _ _ H1). subst S.
  apply (pa_trailer _ _ _ m ms cs la trl (ls1 ++ l1) l2 q' (y0 :: y) (add_headers SReq (map ph_of l1) t) es (hs ++ [rest])); [exact Ec|now rewrite El, app_assoc|exact E4|discriminate|destruct E6 as [E6 | [E6 E7]]; [now left|right; split; [exact E6|]]; destruct Hp as [Hp | [_ Hp]]; [congruence|exact Hp]| | | |exact Be|].
  - rewrite concat_app, Eh. cbn [concat]. rewrite app_nil_r, <- app_assoc, E3. unfold block_text. now rewrite map_app, concat_app, <- app_assoc.
  - rewrite app_assoc. apply ready_more; [apply Ga; now exists l2|exact Rd].
  - destruct (add_headers_gains (map ph_of l1) t) as ((rr & hh & Eg) & _). rewrite Eg. exact Tp.
  - rewrite (map_app (ev_trailer i)). cbn [map]. rewrite app_assoc, tr_of_app. exact M1.
Qed.
Definition length_goes (l : list chunk) : Prop := forall S s a rest k cb t ds es, clean_at (m :: ms) S -> cs ++ [la] = ds ++ l -> l <> [] ->
  ready m (rq_lines (m_req m)) (blen (datas ds)) (blen (chunks_text ds)) t -> body_events (e_cfg e) i m (datas ds) es -> mile StChunkedLength None [] None i t (tr_of es tr) C s ->
  rest_of a rest k cb s -> rest ++ S = chunks_text l ++ block_text trl ++ [13; 10] ++ texts ms -> outcome e i C tr (m :: ms) S s.
Lemma chunk_small ds c l d x : cs ++ [la] = ds ++ c :: l -> ck_data c = d ++ x -> (length (chunks_text ds) + length (size_line c) + length d + (match ck_data c with [] => 0 | _ => length x + 2 end) <= length (chunks_text (cs ++ [la])))%nat.
Proof using.
  intros E Ed. rewrite E, chunks_text_app, chunks_text_cons, !app_length. unfold data_text. destruct (ck_data c) as [|x0 y0] eqn:E0; [symmetry in Ed; apply app_eq_nil in Ed as [-> ->]; cbn [length]; lia|].
  rewrite Ed, !app_length. cbn [length]. lia.
Qed.
Lemma from_crlf l S s a rest k cb t ds c es : length_goes l -> clean_at (m :: ms) S -> cs ++ [la] = ds ++ c :: l -> ck_data c <> [] ->
  ready m (rq_lines (m_req m)) (blen (datas ds ++ ck_data c)) (blen (chunks_text ds ++ size_line c ++ ck_data c)) t -> body_events (e_cfg e) i m (datas ds ++ ck_data c) es ->
  mile StChunkedDataEnd None [] None i t (tr_of es tr) C s ->
  rest_of a rest k cb s -> rest ++ S = [13; 10] ++ chunks_text l ++ block_text trl ++ [13; 10] ++ texts ms -> outcome e i C tr (m :: ms) S s.
Proof using Y Rm Ec.
  intros Lg Cl Ep Nd Rd Be M R E. pose proof (chunk_small ds c l (ck_data c) [] Ep ltac:(now rewrite app_nil_r)) as Sm. pose proof coded_small as Ls. unfold blen in Ls.
  assert (Sm' : (length (chunks_text ds ++ size_line c ++ ck_data c) + 2 <= length (chunks_text (cs ++ [la])))%nat) by (rewrite !app_length; destruct (ck_data c); [congruence|cbn [length] in *; lia]). clear Sm.
  destruct (chunk_pos _ _ _ Ep) as [(Z & _) | (_ & c2 & El & Ecs)]; [congruence|].
  destruct rest as [|r0 [|r1 rest]].
  - destruct (ph_crlf_wait e C s a _ k cb i t M R) as (s1 & H1 & M1). apply (outcome_stop _ _ _ _ _ _ _ _ H1). cbn [app] in E. subst S.
    eapply (pa_crlf _ _ _ m ms cs la trl ds c l (spent 0 t) es); try eassumption. rewrite <- (N.add_0_r (blen (chunks_text ds ++ _))). apply ready_spent; [unfold blen; lia|exact Rd].
  - exfalso. cbn [app] in E. injection E as _ E. apply (Cl [] m ms ([10] ++ chunks_text (c2 ++ [la]) ++ block_text trl ++ [13; 10]) eq_refl); [rewrite Ec, Ecs; apply nc_data|].
    rewrite E, El. rewrite <- !app_assoc. reflexivity.
  - cbn [app] in E. injection E as -> -> E. destruct (ph_crlf e C s a _ rest k cb i t M R) as (s1 & H1 & R1 & M1). apply (outcome_next _ _ _ _ _ _ _ _ H1).
    apply (Lg S s1 a rest (k + 2) cb (spent 2 t) (ds ++ [c]) es); [exact Cl|now rewrite <- app_assoc|rewrite El; destruct c2; discriminate| | |exact M1|exact R1|exact E].
    + replace (blen (datas (ds ++ [c]))) with (blen (datas ds ++ ck_data c)) by (rewrite datas_app; unfold datas at 3; cbn [map concat]; now rewrite app_nil_r).
      replace (blen (chunks_text (ds ++ [c]))) with (blen (chunks_text ds ++ size_line c ++ ck_data c) + 2).
      { apply ready_spent; [unfold blen; lia|exact Rd]. }
      rewrite chunks_text_app, chunks_text_cons. unfold data_text. change (chunks_text []) with (@nil N). destruct (ck_data c) as [|x0 y0]; [congruence|]. unfold blen. rewrite !app_length. cbn [length]. lia.
    + rewrite datas_app. unfold datas at 2. cbn [map concat]. rewrite app_nil_r. exact Be.
Qed.
Lemma from_chunk l S s a rest k cb t ds c d1 d2 es : length_goes l -> clean_at (m :: ms) S -> cs ++ [la] = ds ++ c :: l -> ck_data c = d1 ++ d2 -> d2 <> [] ->
  ready m (rq_lines (m_req m)) (blen (datas ds ++ d1)) (blen (chunks_text ds ++ size_line c ++ d1)) t -> body_events (e_cfg e) i m (datas ds ++ d1) es ->
  mile StChunkedData None [] None i t (tr_of es tr) C s -> d_chunk (s_req s) = Some (blen d2) ->
  rest_of a rest k cb s -> rest ++ S = d2 ++ [13; 10] ++ chunks_text l ++ block_text trl ++ [13; 10] ++ texts ms -> outcome e i C tr (m :: ms) S s.
Proof using Y Rm Ec.
  intros Lg Cl Ep Ed Nd Rd Be M L R E. pose proof (chunk_small ds c l d1 d2 Ep Ed) as Sm. pose proof coded_small as Ls. unfold blen in Ls. pose proof (concat_le ds) as Lc. fold (datas ds) in Lc.
  assert (Sm' : (length (chunks_text ds) + length (size_line c) + length d1 + length d2 <= length (chunks_text (cs ++ [la])))%nat) by (destruct (ck_data c); [destruct d1, d2; try discriminate; congruence|lia]). clear Sm.
  assert (Gr : forall d, (length d <= length d2)%nat -> ready m (rq_lines (m_req m)) (blen (datas ds ++ d1 ++ d)) (blen (chunks_text ds ++ size_line c ++ d1 ++ d)) (grow SReq (blen d) t)).
  { intros d Ld. replace (blen (datas ds ++ d1 ++ d)) with (blen (datas ds ++ d1) + blen d) by (unfold blen; rewrite !app_length; lia).
    replace (blen (chunks_text ds ++ size_line c ++ d1 ++ d)) with (blen (chunks_text ds ++ size_line c ++ d1) + blen d) by (unfold blen; rewrite !app_length; lia).
    apply ready_grow; [unfold blen; rewrite !app_length; lia..|exact Rd]. }
  assert (Fin : forall tail, rest = d2 ++ tail -> [13; 10] ++ chunks_text l ++ block_text trl ++ [13; 10] ++ texts ms = tail ++ S -> outcome e i C tr (m :: ms) S s).
  { intros tail -> Et. destruct (ph_chunk_last e C s a (tr_of es tr) d2 tail k cb i t Y M (rd_cep _ _ _ _ _ Rd) L R Nd) as (s1 & H1 & R1 & M1).
    apply (outcome_next _ _ _ _ _ _ _ _ H1). rewrite !tr_of_piece, <- !tr_of_app in M1.
    eapply (from_crlf l S s1 a tail _ _ (grow SReq (blen d2) t) ds c); [exact Lg|exact Cl|exact Ep|rewrite Ed; destruct d1, d2; try congruence; discriminate|rewrite Ed; apply Gr; apply Nat.le_refl| |exact M1|exact R1|symmetry; exact Et].
    rewrite Ed, app_assoc. apply body_events_more; [exact Be|exact Nd]. }
  apply app_split in E as [(q & E1 & E2) | (q & E1 & E2)].
  - destruct q as [|x q].
    + rewrite app_nil_r in E1. subst d2. apply (Fin []); [now rewrite app_nil_r|symmetry; exact E2].
    + destruct rest as [|r0 rest].
      * destruct (ph_chunk_wait e C s a _ k cb i t _ M L R) as (s1 & H1 & M1 & L1). apply (outcome_stop _ _ _ _ _ _ _ _ H1). cbn [app] in E1. subst d2 S. eapply pa_chunk; eassumption.
      * destruct (ph_chunk_part e C s a (tr_of es tr) (r0 :: rest) k cb i t _ Y M (rd_cep _ _ _ _ _ Rd) L R) as (s1 & H1 & M1 & L1); [rewrite E1; unfold blen; rewrite app_length; cbn [length]; lia|].
        apply (outcome_stop _ _ _ _ _ _ _ _ H1). subst S. rewrite tr_of_piece, <- tr_of_app in M1.
        apply (pa_chunk _ _ _ m ms cs la trl ds c l (d1 ++ r0 :: rest) (x :: q) (grow SReq (blen (r0 :: rest)) t) (es ++ body_piece i (PlData (r0 :: rest)))); [exact Ec|exact Ep|now rewrite Ed, E1, <- app_assoc|discriminate| |rewrite app_assoc; apply body_events_more; [exact Be|discriminate]|exact M1|].
        { apply Gr. rewrite E1, app_length. lia. }
        rewrite L1. f_equal. rewrite E1. unfold blen. rewrite app_length. lia.
  - apply (Fin q); assumption.
Qed.
Lemma from_length l : length_goes l.
Proof using Y IH Rm Ec.
  induction l as [|c l Lg]; intros S s a rest k cb t ds es Cl Ep Nl Rd Be M R E; [congruence|]. clear Nl. pose proof coded_small as Ls. unfold blen in Ls.
  assert (Gc : good_chunk c) by (destruct chunks_good as (G & _); rewrite Ep in G; apply Forall_app in G as [_ G]; now inversion_clear G).
  assert (Sm : (length (chunks_text ds) + length (size_line c) <= length (chunks_text (cs ++ [la])))%nat) by (rewrite Ep, chunks_text_app, chunks_text_cons, !app_length; lia).
  assert (Rd2 : ready m (rq_lines (m_req m)) (blen (datas ds)) (blen (chunks_text ds ++ size_line c)) (spent (blen (size_line c)) t)).
  { replace (blen (chunks_text ds ++ size_line c)) with (blen (chunks_text ds) + blen (size_line c)) by (unfold blen; rewrite app_length; lia). apply ready_spent; [unfold blen; lia|exact Rd]. }
  assert (Fin : forall tail, rest = size_line c ++ tail -> data_text c ++ chunks_text l ++ block_text trl ++ [13; 10] ++ texts ms = tail ++ S -> outcome e i C tr (m :: ms) S s).
  { intros tail -> Et. destruct (chunk_pos _ _ _ Ep) as [(Zd & -> & -> & ->) | (Nd & c2 & El & Ecs)].
    - destruct (ph_length_last e C s a _ la tail k cb i t M Gc Zd R) as (s1 & H1 & R1 & M1). apply (outcome_next _ _ _ _ _ _ _ _ H1).
      eapply (from_trailer S s1 a tail _ (upd_dir SReq (set_t_prog PTrailer) (spent (blen (size_line la)) t)) None (block_text trl ++ [13; 10]) [] trl es []); [exact Cl|reflexivity|reflexivity|destruct (block_text trl); discriminate| |reflexivity| | |rewrite <- datas_all; exact Be| |exact R1|].
      + destruct trl; [right; split; reflexivity|left; discriminate].
      + rewrite app_nil_r. apply ready_prog; [discriminate|discriminate|]. rewrite datas_all in Rd2. rewrite Ec. cbn [coded_text].
        replace (chunks_text (cs ++ [la])) with (chunks_text cs ++ size_line la); [exact Rd2|]. rewrite chunks_text_app, chunks_text_cons. unfold data_text. rewrite Zd. change (chunks_text []) with (@nil N). now rewrite !app_nil_r.
      + reflexivity.
      + cbn [map]. rewrite app_nil_r. exact M1.
      + unfold data_text in Et. rewrite Zd in Et. rewrite <- Et. change (chunks_text []) with (@nil N). cbn [app]. now rewrite <- !app_assoc.
    - destruct (ph_length e C s a _ c tail k cb i t M Gc Nd R) as (s1 & H1 & R1 & M1 & L1). apply (outcome_next _ _ _ _ _ _ _ _ H1).
      eapply (from_chunk l S s1 a tail _ _ _ ds c [] (ck_data c) es); [exact Lg|exact Cl|exact Ep|reflexivity|exact Nd|rewrite !app_nil_r; exact Rd2|rewrite app_nil_r; exact Be|exact M1|exact L1|exact R1|].
      rewrite <- Et. unfold data_text. destruct (ck_data c); [congruence|]. now rewrite <- !app_assoc. }
  rewrite chunks_text_cons, <- !app_assoc in E. apply app_split in E as [(y & E1 & E2) | (y & E1 & E2)]; [|apply (Fin y); assumption].
  destruct y as [|y0 y]; [rewrite app_nil_r in E1; apply (Fin []); [now rewrite app_nil_r|symmetry; exact E2]|].
  destruct rest as [|r0 rest].
  - destruct (ph_length_wait e C s a _ k cb i t M R) as (s1 & H1 & M1). apply (outcome_stop _ _ _ _ _ _ _ _ H1). cbn [app] in E1. subst S.
    replace ((y0 :: y) ++ data_text c ++ chunks_text l ++ block_text trl ++ [13; 10] ++ texts ms) with (chunks_text (c :: l) ++ block_text trl ++ [13; 10] ++ texts ms) by (rewrite chunks_text_cons, <- !app_assoc, E1; reflexivity).
    eapply pa_length; try eassumption. discriminate.
  - exfalso. apply (Cl [] m ms ((y0 :: y) ++ data_text c ++ chunks_text l ++ block_text trl ++ [13; 10]) eq_refl); [rewrite Ec; apply (nc_size cs la trl ds c l (r0 :: rest)); [exact Ep|exact E1|discriminate|discriminate]|].
    rewrite E2, <- !app_assoc. reflexivity.
Qed.
End Chunks.
Lemma from_body_start S s a rest k cb t es : clean_at (m :: ms) S -> ready m (rq_lines (m_req m)) 0 0 t -> head_events (e_cfg e) i m es -> mile StConnectCheck None [] None i t (tr_of es tr) C s ->
  rest_of a rest k cb s -> rest ++ S = content_text (m_content m) ++ texts ms -> outcome e i C tr (m :: ms) S s.
Proof using Y IH Rm.
  intros Cl Rd He M R E. destruct rm_good1 as ((_ & Nc & _) & _).
  destruct (ph_connect e C s a rest _ k cb i t _ M (rd_methodn _ _ _ _ _ Rd) Nc R) as (s1 & H1 & R1 & M1). apply (outcome_next _ _ _ _ _ _ _ _ H1). clear H1 M R.
  assert (Be : body_events (e_cfg e) i m [] es) by (exists es, []; repeat split; [exact He|intros []|cbn; now rewrite app_nil_r]).
  pose proof (rd_framing _ _ _ _ _ Rd) as Fr. destruct (m_content m) as [bd|cs la trl] eqn:Ec.
  - destruct (content_plain _ Ec) as (Et & Eb & Ed). rewrite <- Ec, Et in E. destruct bd as [|b0 b].
    + destruct (ph_no_body e C s1 a rest _ k cb i t M1) as (s2 & H2 & R2 & M2); [|exact R1|].
      { destruct Fr as [(_ & _ & F) | (_ & F & F2)]; [now left|right]. now split. }
      apply (outcome_next _ _ _ _ _ _ _ _ H2). eapply from_final with (p := []); [exact Cl|apply ready_lines; [now rewrite Eb|]; rewrite Eb, Ed; exact Rd| |exact M2|exact R2|apply begun_nil|exact E|now left].
      exists es, []. rewrite Eb, Ec. split; [exact Be|split; [reflexivity|now rewrite !app_nil_r]].
    + destruct Fr as [(_ & F & _) | (_ & F & F2)]; [discriminate|].
      destruct (ph_body e C s1 a rest _ k cb i t _ M1 F F2) as (s2 & H2 & R2 & M2 & L2); [unfold blen; cbn; lia|exact R1|].
      apply (outcome_next _ _ _ _ _ _ _ _ H2). eapply from_body with (b1 := []) (b2 := b0 :: b) (t := upd_dir SReq (set_t_prog PBody) t); [exact Cl|exact Ec|discriminate|apply ready_prog; [discriminate|discriminate|exact Rd]|exact Be|exact M2|exact L2|exact R2|exact E].
  - destruct (ph_chunked e C s1 a rest _ k cb i t M1 Fr R1) as (s2 & H2 & R2 & M2). apply (outcome_next _ _ _ _ _ _ _ _ H2).
    eapply (from_length cs la trl Ec (cs ++ [la]) S s2 a rest k cb (upd_dir SReq (set_t_prog PBody) t) [] es); [exact Cl|reflexivity|destruct cs; discriminate|apply ready_prog; [discriminate|discriminate|exact Rd]|exact Be|exact M2|exact R2|].
    rewrite E. unfold content_text. cbn [coded_text]. now rewrite <- !app_assoc.
Qed.
Lemma from_headers S s a rest k t p q ls1 ls2 hs : clean_at (m :: ms) S -> rq_lines (m_req m) = ls1 ++ ls2 -> keeps (with_line (m_req m) start_tx) t /\ addressed start_tx (rq_target (m_req m)) t ->
  opt_text p ++ q = block_text ls2 ++ [13; 10] -> q <> [] -> ls2 <> [] \/ (opt_text p = [] /\ rq_lines (m_req m) = []) -> concat hs = block_text ls1 ++ opt_text p ->
  mile StHeaders (Some HRequestHeaderData) [] p i (add_headers SReq (map ph_of ls1) (upd_dir SReq (set_t_prog PHeaders) t))
      (tr_of (line_events i (sent_params (e_cfg e) (rq_target (m_req m))) ++ map (ev_header i) hs) tr) C s ->
  rest_of a rest k k s -> rest ++ S = q ++ content_text (m_content m) ++ texts ms -> outcome e i C tr (m :: ms) S s.
Proof using Y IH Rm.
  intros Cl El [K Ad] Eq Nq Hp Eh M R E. pose proof rm_good1 as Gm. assert (Gl := Gm). destruct Gl as ((_ & _ & _ & _ & Gl) & _). rewrite El in Gl. apply Forall_app in Gl as [_ Gl].
  assert (Tq : t_hpc (x_req (add_headers SReq (map ph_of ls1) (upd_dir SReq (set_t_prog PHeaders) t))) = false /\ t_prog (x_req (add_headers SReq (map ph_of ls1) (upd_dir SReq (set_t_prog PHeaders) t))) = PHeaders).
  { destruct (add_headers_gains (map ph_of ls1) (upd_dir SReq (set_t_prog PHeaders) t)) as ((r & h & ->) & _). destruct K as (K1 & _). cbn. rewrite K1. split; reflexivity. }
  destruct Tq as [Th Tp].
  assert (Ok : head_ok e (add_headers SReq (map ph_of ls2) (add_headers SReq (map ph_of ls1) (upd_dir SReq (set_t_prog PHeaders) t)))).
  { rewrite <- add_headers_app, <- map_app, <- El. exact (head_settled e m t Gm K). }
  assert (Go : forall t' es2, head_done e (add_headers SReq (map ph_of ls2) (add_headers SReq (map ph_of ls1) (upd_dir SReq (set_t_prog PHeaders) t))) t' ->
     es2 = (line_events i (sent_params (e_cfg e) (rq_target (m_req m))) ++ map (ev_header i) hs) ++ [ev_header i q] ++ [mk_ev HRequestHeaders i PlNone] -> ready m (rq_lines (m_req m)) 0 0 t' /\ head_events (e_cfg e) i m es2).
  { intros t' es2 Hd ->. split.
    - rewrite <- add_headers_app, <- map_app, <- El in Hd. exact (head_ready e m t Gm K Ad t' Hd).
    - exists (hs ++ [q]). split; [rewrite concat_app, Eh, El; cbn [concat]; rewrite app_nil_r, <- app_assoc, Eq; unfold block_text; now rewrite map_app, concat_app, <- app_assoc|].
      rewrite map_app. cbn [map]. now rewrite <- !app_assoc. }
  assert (Fin : forall tail, rest = q ++ tail -> content_text (m_content m) ++ texts ms = tail ++ S -> outcome e i C tr (m :: ms) S s).
  { intros tail -> Et.
    assert (D : exists s' t' k', step SReq e s = (ROk None, s') /\ rest_of a tail k' k' s' /\ head_done e (add_headers SReq (map ph_of ls2) (add_headers SReq (map ph_of ls1) (upd_dir SReq (set_t_prog PHeaders) t))) t' /\
       mile StConnectCheck None [] None i t' (tr_of ((line_events i (sent_params (e_cfg e) (rq_target (m_req m))) ++ map (ev_header i) hs) ++ [ev_header i q] ++ [mk_ev HRequestHeaders i PlNone]) tr) C s').
    { destruct ls2 as [|l ls2].
      - destruct Hp as [Hp | [Hp Hl]]; [congruence|]. rewrite Hp in Eq. cbn in Eq. subst q.
        destruct (ph_headers_none e C s a _ p tail k i _ Y M Hp Th Tp R) as (s' & t' & H1 & H2 & H3 & H4); [|exact Ok|exists s', t', (k + 2); split; [exact H1|split; [exact H2|split; [exact H3|rewrite tr_of_app; exact H4]]]].
        (* without header lines there is no body: the next byte starts a method *)
        apply (next_byte tail S). rewrite <- Et. assert (Bd : m_content m = Plain []).
        { destruct Gm as (_ & _ & _ & Fr & _). rewrite Hl in Fr. destruct (m_content m) as [bd|]; [|destruct Fr as (? & (bb & aa & Eb & _) & _); destruct bb; discriminate Eb].
          destruct Fr as [[[_ ->] | (? & (bb & aa & Eb & _) & _)] _]; [reflexivity|destruct bb; discriminate Eb]. }
        rewrite Bd. reflexivity.
      - destruct (ph_headers e C s a (l :: ls2) _ p q tail k i _ Y Gl ltac:(discriminate) M Th Tp R Nq Eq Ok) as (s' & t' & H1 & H2 & H3 & H4).
        exists s', t', (k + blen q). split; [exact H1|split; [exact H2|split; [exact H3|rewrite tr_of_app; exact H4]]]. }
    destruct D as (s1 & t' & k' & H1 & R1 & Hd & M1). apply (outcome_next _ _ _ _ _ _ _ _ H1). destruct (Go t' _ Hd eq_refl) as [Rd He].
    eapply from_body_start; [exact Cl|exact Rd|exact He|exact M1|exact R1|symmetry; exact Et]. }
  apply app_split in E as [(y & E1 & E2) | (y & E1 & E2)]; [|apply (Fin y); assumption].
  destruct y as [|y0 y]; [rewrite app_nil_r in E1; apply (Fin []); [now rewrite app_nil_r|symmetry; exact E2]|].
  rewrite E1, app_assoc in Eq. destruct (head_cut ls2 (opt_text p ++ rest) (y0 :: y) Gl Eq) as (l1 & l2 & q' & -> & E3 & E4 & E5 & E6); [discriminate| |].
  { intro Z. rewrite Z in E2. apply (Cl [] m ms ([10] ++ content_text (m_content m)) eq_refl); [apply nc_head|]. rewrite <- app_assoc. exact E2. }
  apply Forall_app in Gl as [Gl1 _].
  destruct (ph_headers_part e C s a l1 _ p rest q' k i _ _ Y Gl1 M Th R E3 E5) as (s1 & H1 & M1).
  { pose proof (rm_limit _ _ _ _ Rm) as Lim. inversion_clear Lim as [|? ? [Lim1 _] _]. etransitivity; [|exact Lim1]. unfold request_text. rewrite El. unfold block_text in *. rewrite !map_app, !concat_app, <- !app_assoc.
    rewrite <- E4. unfold blen. rewrite !app_length. lia. }
  apply (outcome_stop _ _ _ _ _ _ _ _ H1). subst S. rewrite <- add_headers_app, <- map_app in M1.
  apply (pa_headers _ _ _ m ms (ls1 ++ l1) l2 q' (y0 :: y) t (hs ++ [rest])); [now rewrite El, app_assoc|split; assumption|exact E4|discriminate|destruct E6 as [E6 | [E6 E7]]; [now left|right; split; [exact E6|]]; destruct Hp as [Hp | [_ Hp]]; [congruence|exact Hp]| |].
  - rewrite concat_app, Eh. cbn [concat]. rewrite app_nil_r, <- app_assoc, E3. unfold block_text. now rewrite map_app, concat_app, <- app_assoc.
  - rewrite (map_app (ev_header i)). cbn [map]. rewrite app_assoc, tr_of_app. exact M1.
Qed.
Lemma from_line S s a rest k cb p q : clean_at (m :: ms) S -> p ++ q = request_line_text (m_req m) -> q <> [] -> mile StLine None p None i start_tx (tr_of [ev_start i] tr) C s ->
  rest_of a rest k cb s -> rest ++ S = q ++ after_line m ++ texts ms -> outcome e i C tr (m :: ms) S s.
Proof using Y IH Rm.
  intros Cl Eq Nq M R E. pose proof rm_good1 as (Gr & _). pose proof (rm_line m (or_introl eq_refl)) as Lim.
  assert (Fin : forall tail, rest = q ++ tail -> after_line m ++ texts ms = tail ++ S -> outcome e i C tr (m :: ms) S s).
  { intros tail -> Et. destruct (ph_line e C s a (m_req m) _ p q tail k cb i start_tx Y Gr M eq_refl R Eq Nq Lim) as (s1 & t1 & ps & H1 & R1 & (K & Ad & ->) & M1).
    apply (outcome_next _ _ _ _ _ _ _ _ H1). rewrite tr_of_one, tr_of_line in M1.
    destruct (ph_protocol e C s1 a tail _ (k + blen q) cb i t1 M1) as (s2 & H2 & R2 & M2); [destruct K as (_ & _ & _ & _ & _ & ->); reflexivity|exact R1|].
    apply (outcome_next _ _ _ _ _ _ _ _ H2).
    apply (from_headers S s2 a tail (k + blen q) t1 None (block_text (rq_lines (m_req m)) ++ [13; 10]) [] (rq_lines (m_req m)) []); [exact Cl|reflexivity|split; assumption|reflexivity| | |reflexivity| |exact R2|].
    - destruct (block_text _); discriminate.
    - destruct (rq_lines (m_req m)); [right; split; reflexivity|left; discriminate].
    - cbn [map app]. rewrite app_nil_r. exact M2.
    - rewrite <- Et. unfold after_line. now rewrite <- !app_assoc. }
  apply app_split in E as [(y & E1 & E2) | (y & E1 & E2)]; [|apply (Fin y); assumption].
  destruct y as [|y0 y]; [rewrite app_nil_r in E1; apply (Fin []); [now rewrite app_nil_r|symmetry; exact E2]|].
  assert (Eq' : (p ++ rest) ++ (y0 :: y) = request_line_text (m_req m)) by (rewrite <- app_assoc, <- E1; exact Eq).
  destruct (ph_line_part e C s a _ p rest k cb i _ M R) as (s1 & H1 & M1).
  { intro I. apply (no_lf_part _ _ _ Gr Eq'); [discriminate|]. apply in_or_app. now right. }
  { etransitivity; [|exact Lim]. rewrite <- Eq'. unfold blen. rewrite !app_length. lia. }
  apply (outcome_stop _ _ _ _ _ _ _ _ H1). subst S. apply (pa_line _ _ _ m ms (p ++ rest) (y0 :: y)); [exact Eq'|discriminate|exact M1].
Qed.
End From.
Lemma idle_goes_all e ms : yes e -> idle_goes e ms.
Proof.
  intro Y. induction ms as [|m ms IH]; intros i C tr p s a rest k cb S Rm Cl Q R Bg E Nr.
  - cbn in E. apply app_eq_nil in E as [_ E]. apply app_eq_nil in E as [E _]. contradiction.
  - destruct Bg as (q & Eq & Nq). destruct (ph_start e i tr C s a rest k cb p Y Q) as (s1 & H1 & R1 & M1); [pose proof (rm_size _ _ _ _ Rm); cbn [length] in *; lia|exact R|exact Nr|].
    apply (outcome_next _ _ _ _ _ _ _ _ H1). apply (from_line e m ms Y IH i C tr Rm S s1 a rest k cb p q Cl Eq Nq M1 R1).
    rewrite texts_cons, message_text_line, <- Eq, <- !app_assoc in E. apply app_inv_head in E. exact E.
Qed.

(** * Calls *)
Lemma opened_awake c s : d_status (s_resp s) <> SsDataOther -> opened SReq c s = count_data SReq (blen c) (offer SReq (pd_slice c) s).
Proof. intro A. unfold opened. cbv zeta. replace (sstate_eqb (d_status (s_resp s)) SsDataOther) with false by (destruct (d_status (s_resp s)); congruence || reflexivity). reflexivity. Qed.
Lemma opened_mile x rv buf hdr i t tr C c s : d_status (snd (fst (cx_rest C))) <> SsDataOther -> mile x rv buf hdr i t tr C s ->
  mile x rv buf hdr i t tr C (opened SReq c s) /\ d_left (s_req (opened SReq c s)) = d_left (s_req s) /\ d_chunk (s_req (opened SReq c s)) = d_chunk (s_req s).
Proof.
  intros A [M1 M2 M3 M4 M5 M6 M7 M8 M9 M10 M11 M12]. rewrite <- M10 in A. rewrite opened_awake by exact A. destruct s as [rq rs oe cc ci ri pi txs cf si so trc lg inp].
  split; [constructor; assumption|split; reflexivity].
Qed.
Lemma opened_resting buf i tr C c s : d_status (snd (fst (cx_rest C))) <> SsDataOther -> resting buf i tr C s -> resting buf i tr C (opened SReq c s).
Proof.
  intros A [M1 M2 M3 M4 M5 M6 M7 M8 M9 M10 M11]. rewrite <- M10 in A. rewrite opened_awake by exact A. destruct s as [rq rs oe cc ci ri pi txs cf si so trc lg inp]. constructor; assumption.
Qed.
Lemma opened_rest c s : rest_of c c 0 0 (opened SReq c s).
Proof. split; [apply opened_same|split; [apply N.le_0_l|reflexivity]]. Qed.
Lemma paused_goes e i C tr ms c S s : yes e -> room e i C ms -> clean_at ms S -> c <> [] -> paused (e_cfg e) i C tr ms (c ++ S) s -> outcome e i C tr ms S (opened SReq c s).
Proof.
  intros Y Rm Cl Nc P. pose proof (rm_awake _ _ _ _ Rm) as Aw. remember (c ++ S) as X eqn:EX. pose proof (opened_rest c s) as R. destruct P as [ms s Q|m ms p q s Eq Nq M|m ms ls1 ls2 p q t hs s El K Eq Nq Hp Eh M|m ms b1 b2 t es s Ec Nb Rd Be M L|m ms cs la trl ds l t es s Ec Ep Nl Rd Be M|m ms cs la trl ds ck l d1 d2 t es s Ec Ep Ed Nd Rd Be M L|m ms cs la trl ds ck l t es s Ec Ep Nd Rd Be M|m ms cs la trl ls1 ls2 p q t es hs s Ec El Eq Nq Hp Eh Rd Tp Be M|m m' ms p q t es s Eq Np Nq Rd Es M].
  - apply (idle_goes_all e ms Y i C tr [] _ c c 0 0 S Rm Cl (opened_resting _ _ _ _ c _ Aw Q) R); [apply begun_nil|symmetry; exact EX|exact Nc].
  - apply (from_line e m ms Y (idle_goes_all e ms Y) i C tr Rm S _ c c 0 0 p q Cl Eq Nq (proj1 (opened_mile _ _ _ _ _ _ _ _ c _ Aw M)) R). now symmetry.
  - apply (from_headers e m ms Y (idle_goes_all e ms Y) i C tr Rm S _ c c 0 t (Some p) q ls1 ls2 hs Cl El K Eq Nq Hp Eh (proj1 (opened_mile _ _ _ _ _ _ _ _ c _ Aw M)) R). now symmetry.
  - destruct (opened_mile _ _ _ _ _ _ _ _ c _ Aw M) as (M' & L' & _). rewrite L in L'.
    apply (from_body e m ms Y (idle_goes_all e ms Y) i C tr Rm S _ c c 0 0 t b1 b2 es Cl Ec Nb Rd Be M' L' R). now symmetry.
  - apply (from_length e m ms Y (idle_goes_all e ms Y) i C tr Rm cs la trl Ec l S _ c c 0 0 t ds es Cl Ep Nl Rd Be (proj1 (opened_mile _ _ _ _ _ _ _ _ c _ Aw M)) R). now symmetry.
  - destruct (opened_mile _ _ _ _ _ _ _ _ c _ Aw M) as (M' & _ & L'). rewrite L in L'.
    apply (from_chunk e m ms Y i C tr Rm cs la trl Ec l S _ c c 0 0 t ds ck d1 d2 es (from_length e m ms Y (idle_goes_all e ms Y) i C tr Rm cs la trl Ec l) Cl Ep Ed Nd Rd Be M' L' R). now symmetry.
  - apply (from_crlf e m ms Y i C tr Rm cs la trl Ec l S _ c c 0 0 t ds ck es (from_length e m ms Y (idle_goes_all e ms Y) i C tr Rm cs la trl Ec l) Cl Ep Nd Rd Be (proj1 (opened_mile _ _ _ _ _ _ _ _ c _ Aw M)) R). now symmetry.
  - apply (from_trailer e m ms Y (idle_goes_all e ms Y) i C tr Rm cs la trl Ec S _ c c 0 t (Some p) q ls1 ls2 es hs Cl El Eq Nq Hp Eh Rd Tp Be (proj1 (opened_mile _ _ _ _ _ _ _ _ c _ Aw M)) R). now symmetry.
  - apply (from_final e m (m' :: ms) Y (idle_goes_all e _ Y) i C tr Rm S p _ c c 0 0 t es Cl Rd Es (proj1 (opened_mile _ _ _ _ _ _ _ _ c _ Aw M)) R); [exists q; split; assumption| |right; split; [reflexivity|exact Nc]].
    rewrite <- EX, texts_cons, message_text_line, <- Eq. now rewrite <- !app_assoc.
Qed.
Lemma paused_bufsum e i C tr ms S s : room e i C ms -> paused (e_cfg e) i C tr ms S s -> bufsum (s_req s) <= c_field_limit (e_cfg e) /\ live_status (d_status (s_req s)).
Proof.
  intros Rm P. assert (Z : forall m, In m ms -> blen (request_text (m_req m)) <= c_field_limit (e_cfg e)) by (intros m I; pose proof (rm_limit _ _ _ _ Rm) as H; rewrite Forall_forall in H; now apply H).
  assert (Zt : forall m, In m ms -> blen (block_text (trailer_of (m_content m))) + 2 <= c_field_limit (e_cfg e)) by (intros m I; pose proof (rm_limit _ _ _ _ Rm) as H; rewrite Forall_forall in H; now apply H).
  assert (Zl : forall m p q, In m ms -> p ++ q = request_line_text (m_req m) -> blen p <= c_field_limit (e_cfg e)).
  { intros m p q I E. etransitivity; [|apply (Z m I)]. unfold request_text. rewrite <- E. unfold blen. rewrite !app_length. lia. }
  unfold bufsum. destruct P as [ms s Q|m ms p q s Eq Nq M|m ms ls1 ls2 p q t hs s El K Eq Nq Hp Eh M|m ms b1 b2 t es s Ec Nb Rd Be M L|m ms cs la trl ds l t es s Ec Ep Nl Rd Be M|m ms cs la trl ds ck l d1 d2 t es s Ec Ep Ed Nd Rd Be M L|m ms cs la trl ds ck l t es s Ec Ep Nd Rd Be M|m ms cs la trl ls1 ls2 p q t es hs s Ec El Eq Nq Hp Eh Rd Tp Be M|m m' ms p q t es s Eq Np Nq Rd Es M].
  - rewrite (rs_buf _ _ _ _ _ Q), (rs_header _ _ _ _ _ Q). split; [change (blen []) with 0; lia|exact (rs_live _ _ _ _ _ Q)].
  - rewrite (ml_buf _ _ _ _ _ _ _ _ _ M), (ml_header _ _ _ _ _ _ _ _ _ M). split; [|exact (ml_live _ _ _ _ _ _ _ _ _ M)]. rewrite N.add_0_r. apply (Zl m p q); [now left|exact Eq].
  - rewrite (ml_buf _ _ _ _ _ _ _ _ _ M), (ml_header _ _ _ _ _ _ _ _ _ M). split; [|exact (ml_live _ _ _ _ _ _ _ _ _ M)]. change (blen []) with 0. rewrite N.add_0_l. etransitivity; [|apply (Z m); now left].
    unfold request_text. rewrite El. unfold block_text in *. rewrite !map_app, !concat_app, <- !app_assoc, <- Eq. unfold blen. rewrite !app_length. lia.
  - rewrite (ml_buf _ _ _ _ _ _ _ _ _ M), (ml_header _ _ _ _ _ _ _ _ _ M). split; [change (blen []) with 0; lia|exact (ml_live _ _ _ _ _ _ _ _ _ M)].
  - rewrite (ml_buf _ _ _ _ _ _ _ _ _ M), (ml_header _ _ _ _ _ _ _ _ _ M). split; [change (blen []) with 0; lia|exact (ml_live _ _ _ _ _ _ _ _ _ M)].
  - rewrite (ml_buf _ _ _ _ _ _ _ _ _ M), (ml_header _ _ _ _ _ _ _ _ _ M). split; [change (blen []) with 0; lia|exact (ml_live _ _ _ _ _ _ _ _ _ M)].
  - rewrite (ml_buf _ _ _ _ _ _ _ _ _ M), (ml_header _ _ _ _ _ _ _ _ _ M). split; [change (blen []) with 0; lia|exact (ml_live _ _ _ _ _ _ _ _ _ M)].
  - rewrite (ml_buf _ _ _ _ _ _ _ _ _ M), (ml_header _ _ _ _ _ _ _ _ _ M). split; [|exact (ml_live _ _ _ _ _ _ _ _ _ M)]. change (blen []) with 0. rewrite N.add_0_l. etransitivity; [|apply (Zt m); now left].
    rewrite Ec, El. cbn [trailer_of]. unfold block_text in *. rewrite map_app, concat_app. apply (f_equal (@length N)) in Eq. rewrite !app_length in Eq. cbn [length] in Eq. unfold blen. rewrite !app_length. lia.
  - rewrite (ml_buf _ _ _ _ _ _ _ _ _ M), (ml_header _ _ _ _ _ _ _ _ _ M). split; [|exact (ml_live _ _ _ _ _ _ _ _ _ M)]. rewrite N.add_0_r. apply (Zl m' p q); [right; now left|exact Eq].
Qed.
Lemma runs_data_call e c s s' : c <> [] -> bufsum (s_req s) <= c_field_limit (e_cfg e) -> live_status (d_status (s_req s)) -> runs e (opened SReq c s) s' ->
  data_call SReq (pd_slice c) e s = (ROk SsData, s').
Proof.
  intros Nc B L [n R]. assert (Lc : 0 < blen c) by (destruct c; [congruence|unfold blen; cbn; lia]).
  destruct (data_call_ok e SReq (pd_slice c) s) as (x & s2 & H & _); [split; [reflexivity|cbn; congruence]|exact B|intro Z; exfalso; exact (live_not_closed _ L Z)|].
  rewrite H. rewrite data_call_bytes in H by (assumption). apply loops_fuel in R.
  pose proof (data_loop_more SReq e n (opened SReq c s)) as D1. rewrite R in D1. specialize (D1 ltac:(discriminate) (loop_fuel SReq (opened SReq c s))).
  pose proof (data_loop_more SReq e (loop_fuel SReq (opened SReq c s)) (opened SReq c s)) as D2. rewrite H in D2. specialize (D2 ltac:(discriminate) n). rewrite Nat.add_comm in D2. congruence.
Qed.
Lemma told_app {cfg} i C tr a i1 C1 tr1 b i2 C2 tr2 : told cfg i C tr a i1 C1 tr1 -> told cfg i1 C1 tr1 b i2 C2 tr2 -> told cfg i C tr (a ++ b) i2 C2 tr2.
Proof. intro H. induction H; intro T; [exact T|]. cbn [app]. econstructor; [eassumption|eassumption|now apply IHtold]. Qed.
Lemma told_room e i C tr d i' C' tr' ms : told (e_cfg e) i C tr d i' C' tr' -> room e i C (d ++ ms) -> room e i' C' ms.
Proof. intro H. induction H; intro R; [exact R|]. apply IHtold. eapply room_next. exact R. Qed.
Lemma clean_drop d ms S : clean_at (d ++ ms) S -> clean_at ms S.
Proof. intros H b x a y ->. apply (H (d ++ b) x a y). now rewrite <- app_assoc. Qed.
Lemma stream_calls e cs : yes e -> forall i C tr ms S s, room e i C ms -> ~ In [] cs -> (forall a b, cs = a ++ b -> a <> [] -> clean_at ms (concat b ++ S)) ->
  paused (e_cfg e) i C tr ms (concat cs ++ S) s ->
  exists s' done ms' i' C' tr', run_ops (map (fun c => OpReq (pd_slice c)) cs) e s = (ROk (map (fun _ => Some SsData) cs), s') /\ ms = done ++ ms' /\ told (e_cfg e) i C tr done i' C' tr' /\ paused (e_cfg e) i' C' tr' ms' S s'.
Proof.
  intro Y. induction cs as [|c cs IH]; intros i C tr ms S s Rm Ne Cl P.
  - exists s, [], ms, i, C, tr. split; [reflexivity|]. split; [reflexivity|]. split; [constructor|exact P].
  - cbn [concat] in P. rewrite <- app_assoc in P. assert (Nc : c <> []) by (intros ->; apply Ne; now left).
    destruct (paused_bufsum _ _ _ _ _ _ _ Rm P) as [B L].
    destruct (paused_goes e i C tr ms c (concat cs ++ S) s Y Rm (Cl [c] cs eq_refl ltac:(discriminate)) Nc P) as (s1 & d1 & ms1 & i1 & C1 & tr1 & R1 & -> & T1 & P1).
    apply (runs_data_call e c s s1 Nc B L) in R1.
    destruct (IH i1 C1 tr1 ms1 S s1) as (s2 & d2 & ms2 & i2 & C2 & tr2 & R2 & -> & T2 & P2); [eapply told_room; eassumption|intro Z; apply Ne; now right| |exact P1|].
    + intros a b -> Na. apply (clean_drop d1). apply (Cl (c :: a) b); [reflexivity|discriminate].
    + exists s2, (d1 ++ d2), ms2, i2, C2, tr2. split; [|split; [now rewrite app_assoc|split; [eapply told_app; eassumption|exact P2]]].
      cbn [map run_ops]. unfold bind at 1. cbn [run_op]. unfold bind at 1. rewrite R1. unfold ret at 1. unfold bind at 1. rewrite R2. reflexivity.
Qed.

(** * A new connection *)
Definition new_ctx : ctx := mk_ctx (fun _ => None) (0, set_d_status SsOpen dir_new, false) 0.
Lemma open_eval e : exists s, run_op OpOpen e st_new = (ROk None, s) /\ resting [] 0 [] new_ctx s.
Proof. eexists. split; [reflexivity|]. constructor; try reflexivity; [right; reflexivity|right; left; reflexivity|right; split; [reflexivity|cbn; lia]]. Qed.
Lemma new_room e ms : Forall good_message ms -> fits e ms -> room e 0 new_ctx ms.
Proof. intros G (F1 & F2 & F3). constructor; try assumption; try (cbn; lia); [reflexivity|discriminate]. Qed.
Lemma told_facts {cfg} i C tr ms i' C' tr' : told cfg i C tr ms i' C' tr' ->
  i' = i + N.of_nat (length ms) /\ (exists es, tr' = tr_of es tr /\ stream_events cfg i ms es) /\
  (forall k m, nth_error ms k = Some m -> exists t, cx_table C' (i + N.of_nat k) = Some t /\ holds m t) /\ (forall j, j < i -> cx_table C' j = cx_table C j).
Proof.
  intro H. induction H as [i C tr|i C tr m t es ms i' C' tr' Ho Me H (IH1 & (es' & IH2 & IH2') & IH3 & IH4)].
  - split; [cbn; lia|]. split; [exists []; split; [reflexivity|constructor]|]. split; [intros [|k]; discriminate|reflexivity].
  - split; [cbn [length]; lia|]. split; [|split].
    + exists (es ++ es'). split; [now rewrite tr_of_app|now constructor].
    + intros [|k] m' Hk.
      * injection Hk as <-. exists t. split; [|exact Ho]. rewrite N.add_0_r. rewrite IH4 by lia. cbn [cx_table next_ctx]. now rewrite N.eqb_refl.
      * destruct (IH3 k m' Hk) as (t' & H1 & H2). exists t'. split; [|exact H2]. rewrite <- H1. f_equal. lia.
    + intros j Hj. rewrite IH4 by lia. cbn [cx_table next_ctx]. destruct (j =? i) eqn:E; [lia|reflexivity].
Qed.
Lemma events_tr_of es s : s_trace s = tr_of es [] -> events s = es.
Proof. intro H. unfold events. rewrite H. unfold tr_of. rewrite app_nil_r, map_rev, rev_involutive, map_map. apply map_id. Qed.
(** The table of the transactions that are complete. *)
Definition paused_table {cfg} i C tr ms S s : paused cfg i C tr ms S s -> forall j, j <> i -> tx_get j (s_txs s) = cx_table C j.
Proof. intros P j Hj. destruct P as [ms s Q|m ms p q s Eq Nq M|m ms ls1 ls2 p q t hs s El K Eq Nq Hp Eh M|m ms b1 b2 t es s Ec Nb Rd Be M L|m ms cs la trl ds l t es s Ec Ep Nl Rd Be M|m ms cs la trl ds ck l d1 d2 t es s Ec Ep Ed Nd Rd Be M L|m ms cs la trl ds ck l t es s Ec Ep Nd Rd Be M|m ms cs la trl ls1 ls2 p q t es hs s Ec El Eq Nq Hp Eh Rd Tp Be M|m m' ms p q t es s Eq Np Nq Rd Es M]; [apply (rs_others _ _ _ _ _ Q)|apply (ml_others _ _ _ _ _ _ _ _ _ M)..]; exact Hj. Qed.
Lemma stream_from_new e ms cs rest : yes e -> Forall good_message ms -> fits e ms -> ~ In [] cs -> concat cs ++ rest = texts ms -> clean ms cs rest ->
  exists s done ms' C tr, history e (requests_in cs) = (ROk (all_data cs), s) /\ ms = done ++ ms' /\ told (e_cfg e) 0 new_ctx [] done (N.of_nat (length done)) C tr /\
    paused (e_cfg e) (N.of_nat (length done)) C tr ms' rest s.
Proof.
  intros Y G F Ne E Cl. destruct (open_eval e) as (s0 & H0 & Q0). pose proof (@pa_idle (e_cfg e) 0 new_ctx [] ms s0 Q0) as P0. rewrite <- E in P0.
  destruct (stream_calls e cs Y 0 new_ctx [] ms rest s0 (new_room e ms G F) Ne) as (s & d & ms' & i' & C' & tr' & H1 & H2 & H3 & H4); [|exact P0|].
  - intros a b -> _ before m after y Em. apply (Cl a b before m after y); [reflexivity|exact Em].
  - exists s, d, ms', C', tr'. assert (Ei : i' = N.of_nat (length d)) by (destruct (told_facts _ _ _ _ _ _ _ H3) as (-> & _); lia). rewrite <- Ei.
    split; [|split; [exact H2|split; assumption]]. unfold history, requests_in. cbn [run_ops]. unfold bind at 1. rewrite H0. unfold bind at 1. rewrite H1. reflexivity.
Qed.
Lemma texts_nil ms : texts ms = [] -> ms = [].
Proof. destruct ms as [|m ms]; [reflexivity|]. rewrite texts_cons, message_text_line. unfold request_line_text. destruct (rq_method (m_req m)); discriminate. Qed.
Lemma paused_end {cfg} i C tr ms s : paused cfg i C tr ms [] s -> ms = [] /\ resting [] i tr C s.
Proof.
  intro P. remember (@nil N) as R eqn:ER in P. destruct P as [ms s Q|m ms p q s Eq Nq M|m ms ls1 ls2 p q t hs s El K Eq Nq Hp Eh M|m ms b1 b2 t es s Ec Nb Rd Be M L|m ms cs la trl ds l t es s Ec Ep Nl Rd Be M|m ms cs la trl ds ck l d1 d2 t es s Ec Ep Ed Nd Rd Be M L|m ms cs la trl ds ck l t es s Ec Ep Nd Rd Be M|m ms cs la trl ls1 ls2 p q t es hs s Ec El Eq Nq Hp Eh Rd Tp Be M|m m' ms p q t es s Eq Np Nq Rd Es M];
    try (apply app_eq_nil in ER as [ER _]; contradiction); try discriminate ER; [split; [now apply texts_nil|exact Q]|]. exfalso. apply app_eq_nil in ER as [_ ER]. apply app_eq_nil in ER as [_ ER]. discriminate ER.
Qed.
Lemma stream_parsed_yes e ms cs : yes e -> Forall good_message ms -> fits e ms -> ~ In [] cs -> concat cs = texts ms -> clean ms cs [] ->
  exists s, history e (requests_in cs) = (ROk (all_data cs), s) /\ stream_events (e_cfg e) 0 ms (events s) /\
    (forall k m, nth_error ms k = Some m -> exists t, tx_get (N.of_nat k) (s_txs s) = Some t /\ holds m t).
Proof.
  intros Y G F Ne E Cl. rewrite <- (app_nil_r (concat cs)) in E. destruct (stream_from_new e ms cs [] Y G F Ne E Cl) as (s & d & ms' & C & tr & H & -> & T & P).
  destruct (paused_end _ _ _ _ _ P) as [-> Q]. rewrite app_nil_r. destruct (told_facts _ _ _ _ _ _ _ T) as (_ & (es & -> & Se) & Tx & _).
  exists s. split; [exact H|]. split; [rewrite (events_tr_of es s (rs_trace _ _ _ _ _ Q)); exact Se|].
  intros k m Hk. destruct (Tx k m Hk) as (t & Ht & Ho). exists t. split; [|exact Ho]. rewrite (rs_others _ _ _ _ _ Q); [exact Ht|].
  assert (k < length d)%nat by (apply nth_error_Some; congruence). lia.
Qed.
Lemma fits_mute e ms : fits e ms -> fits (mute e) ms. Proof. exact (fun H => H). Qed.
Lemma similar_txs s s' : similar s s' -> s_txs s = s_txs s' /\ events s = events s'.
Proof. intros [B E]. split; [|exact E]. unfold bare in B. destruct s, s'. cbn in B. now injection B. Qed.
Lemma history_mute e l : accepting e -> fst (history e l) = fst (history (mute e) l) /\ similar (snd (history e l)) (snd (history (mute e) l)).
Proof. apply run_ops_mute. Qed.
Lemma stream_events_mute e i ms es : stream_events (e_cfg (mute e)) i ms es -> stream_events (e_cfg e) i ms es.
Proof. intro H. induction H as [i|i m ms es es' H _ IH]; [constructor|]. constructor; [exact H|exact IH]. Qed.
Lemma stream_parsed e ms cs : accepting e -> Forall good_message ms -> fits e ms -> ~ In [] cs -> concat cs = texts ms -> clean ms cs [] ->
  exists s, history e (requests_in cs) = (ROk (all_data cs), s) /\ stream_events (e_cfg e) 0 ms (events s) /\
    (forall k m, nth_error ms k = Some m -> exists t, tx_get (N.of_nat k) (s_txs s) = Some t /\ holds m t).
Proof.
  intros A G F Ne E Cl. destruct (stream_parsed_yes (mute e) ms cs (yes_mute e) G (fits_mute e ms F) Ne E Cl) as (s & H & Se & Tx).
  destruct (history_mute e (requests_in cs) A) as [H1 H2]. rewrite H in H1, H2. cbn [fst snd] in H1, H2. apply similar_txs in H2 as [H2 H3].
  exists (snd (history e (requests_in cs))). split; [rewrite <- H1; apply surjective_pairing|]. rewrite H3, H2. split; [now apply stream_events_mute|exact Tx].
Qed.
(** ** Bodies *)
Lemma body_of_app i es es' : body_of i (es ++ es') = body_of i es ++ body_of i es'. Proof. apply flat_map_app. Qed.
Lemma body_of_none i l : (forall x, In x l -> ev_hook x <> HRequestBody) -> body_of i l = [].
Proof. induction l as [|x l IH]; intro H; [reflexivity|]. unfold body_of in *. cbn [flat_map]. rewrite IH by (intros y Hy; apply H; now right). specialize (H x (or_introl eq_refl)). destruct (ev_hook x); try reflexivity. congruence. Qed.
Lemma body_of_line i j ps : body_of j (line_events i ps) = [].
Proof.
  apply body_of_none. intros x Hx. unfold line_events in Hx. apply in_app_or in Hx as [[<- | []] | Hx]; [discriminate|]. apply in_app_or in Hx as [Hx | [<- | [<- | []]]]; try discriminate.
  apply in_map_iff in Hx as (nv & <- & _). discriminate.
Qed.
Lemma body_of_headers i j hs : body_of j (map (ev_header i) hs) = [].
Proof. apply body_of_none. intros x Hx. apply in_map_iff in Hx as (nv & <- & _). discriminate. Qed.
Lemma body_of_pieces i j bs : body_of j (flat_map (fun b => body_piece i (PlData b)) bs) = if i =? j then concat bs else [].
Proof.
  induction bs as [|b bs IH]; [destruct (i =? j); reflexivity|]. cbn [flat_map]. rewrite body_of_app, IH. unfold body_of at 1. cbn. destruct (i =? j); cbn [concat]; [now rewrite app_nil_r|reflexivity].
Qed.
Lemma body_of_ends i j n : body_of j (concat (repeat (body_piece i PlNone) n)) = [].
Proof. induction n as [|n IH]; [reflexivity|]. cbn [repeat concat]. rewrite body_of_app, IH. reflexivity. Qed.
Lemma body_of_trailer i j c ts : trailer_events i c ts -> body_of j ts = [].
Proof.
  intro H. apply body_of_none. intros x Hx. destruct c; cbn in H; [now subst ts|]. destruct H as (hs & _ & ->). apply in_app_or in Hx as [Hx | [<- | []]]; [|discriminate].
  apply in_map_iff in Hx as (h & <- & _). discriminate.
Qed.
Lemma body_of_events {cfg} i m b es : body_events cfg i m b es -> body_of i es = b.
Proof. intros (he & bs & (hs & _ & ->) & <- & _ & ->). rewrite !body_of_app, body_of_line, body_of_headers, body_of_pieces, N.eqb_refl. reflexivity. Qed.
Lemma body_of_message {cfg} i j m es : message_events cfg i m es -> body_of j es = if i =? j then m_body m else [].
Proof.
  intros (ps & hs & bs & ts & n & _ & _ & <- & _ & Ht & _ & ->).
  transitivity (body_of j (line_events i ps ++ map (ev_header i) hs ++ [mk_ev HRequestHeaders i PlNone] ++ flat_map (fun b => body_piece i (PlData b)) bs ++ ts ++ concat (repeat (body_piece i PlNone) n) ++ [ev_complete i])).
  { f_equal. unfold line_events. rewrite <- !app_assoc. reflexivity. }
  rewrite !body_of_app, body_of_line, body_of_headers, body_of_pieces, body_of_ends, (body_of_trailer _ _ _ _ Ht). change (body_of j [mk_ev HRequestHeaders i PlNone]) with (@nil N). change (body_of j [ev_complete i]) with (@nil N).
  cbn [app]. now rewrite !app_nil_r.
Qed.
Lemma body_of_stream {cfg} i ms es : stream_events cfg i ms es -> forall k m, nth_error ms k = Some m -> body_of (i + N.of_nat k) es = m_body m.
Proof.
  assert (Z : forall i ms es, stream_events cfg i ms es -> forall j, j < i -> body_of j es = []).
  { clear. intros i ms es H. induction H as [i|i m ms es es' Me H IH]; intros j Hj; [reflexivity|]. rewrite body_of_app, (body_of_message _ _ _ _ Me), IH by lia. destruct (i =? j) eqn:E; [lia|reflexivity]. }
  intro H. induction H as [i|i m ms es es' Me H IH]; intros k m' Hk; [destruct k; discriminate|]. rewrite body_of_app, (body_of_message _ _ _ _ Me). destruct k as [|k].
  - injection Hk as <-. rewrite N.add_0_r, N.eqb_refl, (Z _ _ _ H) by lia. apply app_nil_r.
  - destruct (i =? i + N.of_nat (S k)) eqn:Ei; [lia|]. cbn [app nth_error] in *. rewrite <- (IH k m' Hk). f_equal. lia.
Qed.
(** ** Part of the last body is still to come *)
Lemma chunks_before_zero cs : chunks_before cs 0 = [].
Proof. induction cs as [|c cs IH]; [reflexivity|]. cbn [chunks_before]. rewrite !Nat.sub_0_l. exact IH. Qed.
Lemma chunks_before_app ds r n : chunks_before (ds ++ r) (length (chunks_text ds) + n) = datas ds ++ chunks_before r n.
Proof.
  induction ds as [|c ds IH]; [reflexivity|]. cbn [app chunks_before]. unfold chunks_text, datas in *. cbn [map concat]. rewrite app_length, <- app_assoc. f_equal.
  - apply firstn_all2. unfold chunk_text, data_text. rewrite app_length. destruct (ck_data c); [cbn [length]; lia|]. rewrite app_length. lia.
  - rewrite <- IH. f_equal. lia.
Qed.
Lemma chunks_before_last cs la n : ck_data la = [] -> chunks_before (cs ++ [la]) n = chunks_before cs n.
Proof. intro E. revert n. induction cs as [|c cs IH]; intro n; cbn [app chunks_before]; [rewrite E; now rewrite firstn_nil|]. now rewrite IH. Qed.
Lemma chunk_before ds c l d1 d2 : ck_data c = d1 ++ d2 -> chunks_before (ds ++ c :: l) (length (chunks_text ds ++ size_line c ++ d1)) = datas ds ++ d1.
Proof.
  intro E. rewrite app_length, chunks_before_app. f_equal. cbn [chunks_before]. rewrite app_length, Nat.add_comm, Nat.add_sub, E, firstn_app, Nat.sub_diag, firstn_all, firstn_O, app_nil_r.
  match goal with |- context [chunks_before l ?n] => replace n with 0%nat end; [rewrite chunks_before_zero; apply app_nil_r|].
  unfold chunk_text, data_text. rewrite E. destruct (d1 ++ d2) eqn:E2; [apply app_eq_nil in E2 as [-> ->]; rewrite !app_length; cbn [length]; lia|]. rewrite <- E2, !app_length. lia.
Qed.
Lemma paused_content {cfg} i C tr ms m x y s : paused cfg i C tr ms y s -> (exists l, ms = l ++ [m]) -> good_message m -> content_text (m_content m) = x ++ y -> y <> [] ->
  ms = [m] /\ exists t es, s_trace s = tr_of es tr /\ tx_get i (s_txs s) = Some t /\ body_of i es = body_before (m_content m) (length x) /\
    t_elen (x_req t) = blen (body_before (m_content m) (length x)) /\ t_mlen (x_req t) = N.min (blen x) (blen (coded_text (m_content m))).
Proof.
  intros P (l0 & El0) Gm Ex Ny. assert (Ly : (length y <= length (content_text (m_content m)))%nat) by (rewrite Ex, app_length; lia).
  assert (Tl : forall l', (length y < length (texts (l' ++ [m])))%nat).
  { intro l'. unfold texts. rewrite map_app, concat_app. cbn [map concat]. rewrite app_nil_r, message_text_line. unfold after_line. rewrite !app_length. cbn [length]. lia. }
  assert (One : forall m0 ms0, m0 :: ms0 = l0 ++ [m] -> (length (texts ms0) <= length y)%nat -> m0 = m /\ ms0 = []).
  { intros m0 ms0 E L. destruct l0 as [|z l]; cbn [app] in E; injection E as -> ->; [now split|]. specialize (Tl l). lia. }
  remember y as Y0 eqn:EY in P. destruct P as [ms s Q|m0 ms p q s Eq Nq M|m0 ms ls1 ls2 p q t hs s El K Eq Nq Hp Eh M|m0 ms b1 b2 t es s Ec Nb Rd Be M L|m0 ms cs la trl ds l t es s Ec Ep Nl Rd Be M|m0 ms cs la trl ds ck l d1 d2 t es s Ec Ep Ed Nd Rd Be M L|m0 ms cs la trl ds ck l t es s Ec Ep Nd Rd Be M|m0 ms cs la trl ls1 ls2 p q t es hs s Ec El Eq Nq Hp Eh Rd Tp Be M|m0 m' ms p q t es s Eq Np Nq Rd Es M].
  - exfalso. specialize (Tl l0). rewrite <- El0, EY in Tl. lia.
  - exfalso. destruct (One _ _ El0) as [-> ->]; [rewrite <- EY, !app_length; lia|]. apply (f_equal (@length N)) in EY. unfold after_line in EY. rewrite !app_length in EY. cbn [length] in EY. lia.
  - exfalso. assert (0 < length q)%nat by (destruct q; [congruence|cbn; lia]). destruct (One _ _ El0) as [-> ->]; [rewrite <- EY, !app_length; lia|]. apply (f_equal (@length N)) in EY. rewrite !app_length in EY. lia.
  - destruct (One _ _ El0) as [-> ->]; [rewrite <- EY, !app_length; lia|]. split; [reflexivity|]. exists t, es. split; [exact (ml_trace _ _ _ _ _ _ _ _ _ M)|]. split; [exact (ml_tx _ _ _ _ _ _ _ _ _ M)|].
    rewrite (body_of_events _ _ _ _ Be), (rd_elen _ _ _ _ _ Rd), (rd_mlen _ _ _ _ _ Rd). rewrite Ec in Ex |- *. unfold content_text in Ex. cbn [coded_text body_before] in *. change (texts []) with (@nil N) in EY. rewrite app_nil_r in EY, Ex. subst y.
    apply app_inv_tail in Ex as <-. rewrite firstn_app, Nat.sub_diag, firstn_all, firstn_O, app_nil_r. repeat split. unfold blen. rewrite app_length. lia.
  - destruct (One _ _ El0) as [-> ->]; [rewrite <- EY, !app_length; lia|]. split; [reflexivity|]. exists t, es. split; [exact (ml_trace _ _ _ _ _ _ _ _ _ M)|]. split; [exact (ml_tx _ _ _ _ _ _ _ _ _ M)|].
    rewrite (body_of_events _ _ _ _ Be), (rd_elen _ _ _ _ _ Rd), (rd_mlen _ _ _ _ _ Rd). destruct Gm as (_ & _ & Gc & _). rewrite Ec in *. cbn [good_content] in Gc. destruct Gc as (_ & _ & Ld & _).
    unfold content_text in Ex. cbn [coded_text body_before] in *. change (texts []) with (@nil N) in EY. subst y. rewrite Ep, chunks_text_app, <- !app_assoc in Ex. cbn [app] in Ex. apply app_inv_tail in Ex as <-.
    rewrite <- (chunks_before_last cs la _ Ld), Ep. rewrite <- (Nat.add_0_r (length (chunks_text ds))), chunks_before_app, chunks_before_zero, app_nil_r. repeat split. rewrite chunks_text_app. unfold blen. rewrite app_length. lia.
  - destruct (One _ _ El0) as [-> ->]; [rewrite <- EY, !app_length; lia|]. split; [reflexivity|]. exists t, es. split; [exact (ml_trace _ _ _ _ _ _ _ _ _ M)|]. split; [exact (ml_tx _ _ _ _ _ _ _ _ _ M)|].
    rewrite (body_of_events _ _ _ _ Be), (rd_elen _ _ _ _ _ Rd), (rd_mlen _ _ _ _ _ Rd). destruct Gm as (_ & _ & Gc & _). rewrite Ec in *. cbn [good_content] in Gc. destruct Gc as (_ & _ & Ld & _).
    pose proof (chunk_small cs la ds ck l d1 d2 Ep Ed) as Sm. unfold content_text in Ex. cbn [coded_text body_before] in *. change (texts []) with (@nil N) in EY.
    assert (Exx : x = chunks_text ds ++ size_line ck ++ d1).
    { subst y. rewrite Ep, chunks_text_app, chunks_text_cons, <- !app_assoc in Ex. unfold data_text in Ex. rewrite Ed in Ex. destruct (d1 ++ d2) eqn:E2; [apply app_eq_nil in E2 as [_ ->]; congruence|]. rewrite <- E2 in Ex.
      symmetry in Ex. apply (app_inv_tail (d2 ++ [13; 10] ++ chunks_text l ++ block_text trl ++ [13; 10])). rewrite <- !app_assoc in Ex |- *. cbn [app] in *. exact Ex. }
    subst x. rewrite <- (chunks_before_last cs la _ Ld), Ep, (chunk_before ds ck l d1 d2 Ed). repeat split. rewrite <- Ep. unfold blen. rewrite !app_length. destruct (ck_data ck); cbn [length] in *; lia.
  - destruct (One _ _ El0) as [-> ->]; [rewrite <- EY, !app_length; lia|]. split; [reflexivity|]. exists t, es. split; [exact (ml_trace _ _ _ _ _ _ _ _ _ M)|]. split; [exact (ml_tx _ _ _ _ _ _ _ _ _ M)|].
    rewrite (body_of_events _ _ _ _ Be), (rd_elen _ _ _ _ _ Rd), (rd_mlen _ _ _ _ _ Rd). destruct Gm as (_ & _ & Gc & _). rewrite Ec in *. cbn [good_content] in Gc. destruct Gc as (_ & _ & Ld & _).
    pose proof (chunk_small cs la ds ck l (ck_data ck) [] Ep ltac:(now rewrite app_nil_r)) as Sm. unfold content_text in Ex. cbn [coded_text body_before] in *. change (texts []) with (@nil N) in EY.
    assert (Exx : x = chunks_text ds ++ size_line ck ++ ck_data ck).
    { subst y. rewrite Ep, chunks_text_app, chunks_text_cons, <- !app_assoc in Ex. unfold data_text in Ex. destruct (ck_data ck) as [|z0 z] eqn:E2; [congruence|]. rewrite <- E2 in Ex |- *.
      symmetry in Ex. apply (app_inv_tail ([13; 10] ++ chunks_text l ++ block_text trl ++ [13; 10])). rewrite <- !app_assoc in Ex. cbn [app] in *. rewrite Ex, <- !app_assoc. reflexivity. }
    subst x. rewrite <- (chunks_before_last cs la _ Ld), Ep, (chunk_before ds ck l (ck_data ck) []) by now rewrite app_nil_r. repeat split. rewrite <- Ep. unfold blen. rewrite !app_length. destruct (ck_data ck); cbn [length] in *; lia.
  - destruct (One _ _ El0) as [-> ->]; [rewrite <- EY, !app_length; lia|]. split; [reflexivity|]. exists t, (es ++ map (ev_trailer i) hs). split; [exact (ml_trace _ _ _ _ _ _ _ _ _ M)|]. split; [exact (ml_tx _ _ _ _ _ _ _ _ _ M)|].
    rewrite body_of_app, (body_of_events _ _ _ _ Be), (rd_elen _ _ _ _ _ Rd), (rd_mlen _ _ _ _ _ Rd). rewrite (body_of_none i (map (ev_trailer i) hs)) by (intros z Hz; apply in_map_iff in Hz as (h & <- & _); discriminate). rewrite app_nil_r.
    destruct Gm as (_ & _ & Gc & _). unfold m_body. rewrite Ec in *. cbn [good_content] in Gc. destruct Gc as (_ & _ & Ld & _). unfold content_text in Ex. cbn [coded_text body_before data_of] in *. change (texts []) with (@nil N) in EY.
    assert (Exx : x = chunks_text (cs ++ [la]) ++ block_text ls1 ++ p).
    { subst y. symmetry in Ex. apply (app_inv_tail q). rewrite app_nil_r in Ex. rewrite Ex, El. unfold block_text in *. rewrite map_app, concat_app, <- !app_assoc, Eq. reflexivity. }
    subst x. rewrite <- (chunks_before_last cs la _ Ld). rewrite app_length. rewrite <- (app_nil_r (cs ++ [la])) at 1 3. rewrite chunks_before_app. cbn [chunks_before]. rewrite app_nil_r, datas_app. unfold datas at 2 4. cbn [map concat]. rewrite Ld. cbn [app]. rewrite app_nil_r. repeat split.
    unfold blen. rewrite app_length. lia.
  - exfalso. assert (0 < length q)%nat by (destruct q; [congruence|cbn; lia]). destruct l0 as [|z0 [|z l]]; cbn [app] in El0; [discriminate|injection El0 as -> -> ->|injection El0 as -> -> ->].
    + apply (f_equal (@length N)) in EY. unfold after_line in EY. rewrite !app_length in EY. cbn [length] in EY. lia.
    + specialize (Tl l). apply (f_equal (@length N)) in EY. rewrite !app_length in EY. lia.
Qed.
Lemma history_accept e l r s : accepting e -> history (mute e) l = (r, s) -> exists s', history e l = (r, s') /\ s_txs s' = s_txs s /\ events s' = events s.
Proof.
  intros A H. destruct (history_mute e l A) as [H1 H2]. rewrite H in H1, H2. cbn [fst snd] in H1, H2. apply similar_txs in H2 as [H2 H3].
  exists (snd (history e l)). split; [rewrite <- H1; apply surjective_pairing|]. split; assumption.
Qed.
Lemma body_prompt e ms m cs x y : accepting e -> Forall good_message (ms ++ [m]) -> fits e (ms ++ [m]) -> ~ In [] cs -> content_text (m_content m) = x ++ y -> y <> [] ->
  concat cs ++ y = texts (ms ++ [m]) -> clean (ms ++ [m]) cs y ->
  exists s t, history e (requests_in cs) = (ROk (all_data cs), s) /\ body_of (N.of_nat (length ms)) (events s) = body_before (m_content m) (length x) /\
    tx_get (N.of_nat (length ms)) (s_txs s) = Some t /\ t_elen (x_req t) = blen (body_before (m_content m) (length x)) /\ t_mlen (x_req t) = N.min (blen x) (blen (coded_text (m_content m))).
Proof.
  intros A G F Ne Ex Ny E Cl. destruct (stream_from_new (mute e) (ms ++ [m]) cs y (yes_mute e) G F Ne E Cl) as (s & d & ms' & C & tr & H & Ed & T & P).
  assert (L : exists l, ms' = l ++ [m]).
  { destruct ms' as [|z ms'] using rev_ind; [|rewrite app_assoc in Ed; apply app_inj_tail in Ed as [_ <-]; now exists ms'].
    exfalso. remember (@nil message) as R eqn:ER in P. destruct P; try discriminate. subst. apply Ny. reflexivity. }
  assert (Gm : good_message m) by (apply Forall_app in G as [_ G]; now inversion_clear G).
  destruct (paused_content _ _ _ _ m x y s P L Gm Ex Ny) as (-> & t & es & Mt & Mx & Bo & El & Ml). apply app_inj_tail in Ed as [<- _].
  destruct (told_facts _ _ _ _ _ _ _ T) as (_ & (es0 & -> & Se) & _). destruct (history_accept e _ _ _ A H) as (s' & H' & Etx & Eev).
  exists s', t. split; [exact H'|]. rewrite Eev, Etx. rewrite <- tr_of_app in Mt. rewrite (events_tr_of _ _ Mt). split.
  - rewrite body_of_app. assert (Z : forall i l es, stream_events (e_cfg (mute e)) i l es -> body_of (i + N.of_nat (length l)) es = []).
    { clear. intros i l es H. induction H as [i|i m ms es es' Me H IH]; [reflexivity|]. rewrite body_of_app, (body_of_message _ _ _ _ Me). cbn [length]. replace (i + N.of_nat (S (length ms))) with (i + 1 + N.of_nat (length ms)) by lia.
      rewrite IH. destruct (i =? _) eqn:E; [lia|reflexivity]. }
    rewrite <- (N.add_0_l (N.of_nat (length ms))) at 1. rewrite (Z _ _ _ Se). exact Bo.
  - split; [exact Mx|]. split; [exact El|exact Ml].
Qed.
(** ** Deciding the hypotheses of examples *)
Fixpoint tails {A} (l : list A) : list (list A) := match l with [] => [[]] | _ :: r => l :: tails r end.
Lemma tails_in {A} (a b : list A) : In b (tails (a ++ b)).
Proof. induction a as [|x a IH]; [destruct b; now left|right; exact IH]. Qed.
Definition cuts (c : content) : list bytes :=
  ([10] ++ content_text c) ::
  match c with
  | Plain _ => []
  | Chunked cs la tr =>
    [10] :: flat_map (fun l => match l with
                               | [] => []
                               | c :: c2 => map (fun y => y ++ data_text c ++ chunks_text c2 ++ block_text tr ++ [13; 10]) (filter (fun y => negb (is_nil y)) (tails (tl (size_line c))))
                               end) (tails (cs ++ [la])) ++
            flat_map (fun l => match l with [] => [] | _ :: c2 => [[10] ++ chunks_text (c2 ++ [la]) ++ block_text tr ++ [13; 10]] end) (tails cs)
  end.
Lemma cuts_all c y : no_cut c y -> In y (cuts c).
Proof.
  intros [c'|cs la tr c1 ck c2 x z E1 E2 Nx Nz|c1 ck c2 la tr|cs la tr]; unfold cuts.
  - left. reflexivity.
  - right. right. apply in_or_app. left. apply in_flat_map. exists (ck :: c2). split; [rewrite E1; apply tails_in|]. apply in_map_iff. exists z. split; [reflexivity|]. apply filter_In.
    split; [|destruct z; [congruence|reflexivity]]. rewrite E2. destruct x as [|x0 x]; [congruence|]. cbn [app tl]. apply tails_in.
  - right. right. apply in_or_app. right. apply in_flat_map. exists (ck :: c2). split; [apply tails_in|]. left. reflexivity.
  - right. left. reflexivity.
Qed.
Definition cleanb (ms : list message) (cs : list bytes) (rest : bytes) : bool :=
  forallb (fun b => forallb (fun l => match l with m :: after => forallb (fun y => negb (bytes_eqb (concat b ++ rest) (y ++ texts after))) (cuts (m_content m)) | [] => true end) (tails ms)) (tails cs).
Lemma cleanb_sound ms cs rest : cleanb ms cs rest = true -> clean ms cs rest.
Proof.
  intros H a b before m after y Ea Em Hy E. unfold cleanb in H. rewrite forallb_forall in H. specialize (H b). rewrite Ea in H. specialize (H (tails_in a b)). rewrite forallb_forall in H.
  specialize (H (m :: after)). rewrite Em in H. specialize (H (tails_in before (m :: after))). cbn beta iota in H. rewrite forallb_forall in H. specialize (H y (cuts_all _ _ Hy)). apply negb_true_iff in H. apply bytes_eqb_eq in E. congruence.
Qed.
Definition hlineb (l : hline) : bool :=
  negb (is_nil (hl_name l)) && forallb (fun c => (33 <=? c) && (c <=? 126) && negb (memb c (s2b "()<>@,;:\/[]?={}" ++ [34]))) (hl_name l) &&
  forallb (fun c => (c =? 32) || (c =? 9)) (hl_pre l) && forallb (fun c => (c =? 32) || (c =? 9)) (hl_post l) &&
  forallb (fun c => negb ((c =? 13) || (c =? 10))) (hl_value l) &&
  match hl_value l with [] => is_nil (hl_post l) | x :: _ => negb (is_space x) && negb (is_space (last (hl_value l) 0)) end.
Lemma space_iff c : is_space c = true <-> c_space c.
Proof. unfold is_space, c_space, ascii_space. lia. Qed.
Lemma hlineb_sound l : hlineb l = true -> good_hline l.
Proof.
  unfold hlineb. rewrite !andb_true_iff. intros [[[[[H1 H2] H3] H4] H5] H6]. rewrite forallb_forall in H2, H3, H4, H5. split; [destruct (hl_name l); [discriminate|discriminate]|].
  split; [|split; [|split; [|split; [|split; [|split]]]]].
  - apply Forall_forall. intros x Hx. specialize (H2 x Hx). rewrite !andb_true_iff, negb_true_iff in H2. destruct H2 as [[A B] D]. split; [lia|]. intro I. apply memb_In in I. congruence.
  - apply Forall_forall. intros x Hx. specialize (H3 x Hx). unfold sp_or_tab. lia.
  - apply Forall_forall. intros x Hx. specialize (H4 x Hx). unfold sp_or_tab. lia.
  - apply Forall_forall. intros x Hx. specialize (H5 x Hx). lia.
  - intros x m E Sx. rewrite E in H6. apply andb_true_iff in H6 as [H6 _]. apply space_iff in Sx. rewrite Sx in H6. discriminate.
  - intros x m E Sx. apply space_iff in Sx. rewrite E in H6. rewrite last_last in H6. destruct m; cbn [app] in H6; apply andb_true_iff in H6 as [_ H6]; rewrite Sx in H6; discriminate.
  - intro E. rewrite E in H6. destruct (hl_post l); [reflexivity|discriminate].
Qed.
Definition namedb (k : string) (l : hline) : bool := bytes_eqb (lowers (hl_name l)) (lowers (s2b k)).
Lemma namedb_iff k l : namedb k l = true <-> named k l.
Proof. unfold namedb. rewrite bytes_eqb_eq. symmetry. apply name_eq_lowers. Qed.
Lemma find_first k ls : match find (namedb k) ls with Some l => first_line k ls l | None => no_line k ls end.
Proof.
  induction ls as [|l ls IH]; [constructor|]. cbn [find]. destruct (namedb k l) eqn:E.
  - exists [], ls. split; [reflexivity|]. split; [now apply namedb_iff|constructor].
  - assert (Nl : ~ named k l) by (rewrite <- namedb_iff; congruence). destruct (find (namedb k) ls) as [x|]; [|now constructor]. destruct IH as (b & a & -> & H1 & H2). exists (l :: b), a. split; [reflexivity|]. split; [exact H1|now constructor].
Qed.
Lemma first_line_fun k ls l l' : first_line k ls l -> first_line k ls l' -> l = l'.
Proof.
  intros (b & a & -> & H1 & H2) (b' & a' & E & H1' & H2'). revert b' E H2'. induction b as [|x b IH]; intros b' E H2'.
  - destruct b' as [|y b']; cbn in E; injection E as E1 E2; [exact E1|subst y; inversion_clear H2'; contradiction].
  - inversion_clear H2 as [|? ? Hx Hb]. destruct b' as [|y b']; cbn in E; injection E as E1 E2; [subst x; contradiction|]. inversion_clear H2'. eapply IH; eassumption.
Qed.
Definition is_digitb (c : N) : bool := (48 <=? c) && (c <=? 57).
Definition is_hexb (c : N) : bool := is_digitb c || ((65 <=? c) && (c <=? 70)) || ((97 <=? c) && (c <=? 102)).
Definition chunkb (c : chunk) : bool :=
  negb (is_nil (ck_size c)) && forallb is_hexb (ck_size c) && (hex_value (ck_size c) =? blen (ck_data c)) && (blen (ck_data c) <=? 2 ^ 31 - 1) &&
  match ck_ext c with [] => true | y :: x => (y =? 59) && negb (memb 10 x) end.
Lemma chunkb_sound c : chunkb c = true -> good_chunk c.
Proof.
  unfold chunkb. rewrite !andb_true_iff. intros [[[[H1 H2] H3] H4] H5]. split; [destruct (ck_size c); discriminate|]. split; [|split; [now apply N.eqb_eq|split; [now apply N.leb_le|]]].
  - rewrite forallb_forall in H2. apply Forall_forall. intros x Hx. specialize (H2 x Hx). revert H2. unfold is_hexb, is_digitb, hexdigit, digit. lia.
  - destruct (ck_ext c) as [|y x]; [now left|]. apply andb_true_iff in H5 as [H5 H6]. right. exists x. split; [f_equal; lia|]. intro I. apply memb_In in I. rewrite I in H6. discriminate.
Qed.
Definition contentb (c : content) : bool :=
  match c with
  | Plain _ => true
  | Chunked cs la tr => forallb chunkb (cs ++ [la]) && forallb (fun c => negb (is_nil (ck_data c))) cs && is_nil (ck_data la) && forallb hlineb tr
  end.
Lemma contentb_sound c : contentb c = true -> good_content c.
Proof.
  destruct c as [b|cs la tr]; [intros _; exact I|]. cbn [contentb good_content]. rewrite !andb_true_iff. intros [[[H1 H2] H3] H4]. rewrite forallb_forall in H1, H2, H4.
  split; [apply Forall_forall; intros x Hx; apply chunkb_sound; now apply H1|]. split; [|split; [destruct (ck_data la); [reflexivity|discriminate]|apply Forall_forall; intros x Hx; apply hlineb_sound; now apply H4]].
  apply Forall_forall. intros x Hx. specialize (H2 x Hx). destruct (ck_data x); discriminate.
Qed.
Definition framedb (ls : list hline) (c : content) : bool :=
  match c with
  | Plain b => match find (namedb "content-length") ls with
               | Some l => negb (is_nil (hl_value l)) && forallb is_digitb (hl_value l) && (dec_value (hl_value l) =? blen b)
               | None => is_nil b
               end && match find (namedb "transfer-encoding") ls with Some _ => false | None => true end
  | Chunked _ _ _ => match find (namedb "transfer-encoding") ls with Some l => bytes_eqb (lowers (hl_value l)) (lowers (s2b "chunked")) | None => false end
  end.
Lemma framedb_sound ls c : framedb ls c = true -> SpecMsg.framed ls c.
Proof.
  assert (D : forall c, is_digitb c = true -> digit c) by (intro z; unfold is_digitb, digit; lia).
  destruct c as [b|cs la tr]; cbn [framedb SpecMsg.framed].
  - rewrite andb_true_iff. intros [H7 H9]. split.
    + pose proof (find_first "content-length" ls) as F. destruct (find (namedb "content-length") ls) as [l|].
      * right. exists l. rewrite !andb_true_iff in H7. destruct H7 as [[A B] Z]. rewrite forallb_forall in B. split; [exact F|]. split; [destruct (hl_value l); discriminate|]. split; [apply Forall_forall; intros z Hz; now apply D, B|now apply N.eqb_eq].
      * left. split; [exact F|]. destruct b; [reflexivity|discriminate].
    + pose proof (find_first "transfer-encoding" ls) as F. destruct (find (namedb "transfer-encoding") _); [discriminate|exact F].
  - intro H. pose proof (find_first "transfer-encoding" ls) as F. destruct (find (namedb "transfer-encoding") ls) as [l|]; [|discriminate]. exists l. split; [exact F|]. apply name_eq_lowers. now apply bytes_eqb_eq.
Qed.
Definition messageb (m : message) : bool :=
  let r := m_req m in let ls := rq_lines r in
  existsb (bytes_eqb (rq_method r)) known_methods && negb (bytes_eqb (rq_method r) (s2b "CONNECT")) && negb (is_nil (rq_target r)) &&
  forallb (fun c => (33 <=? c) && (c <=? 126)) (rq_target r) && forallb hlineb ls && (blen (coded_text (m_content m)) <? 2 ^ 64) && contentb (m_content m) && framedb ls (m_content m) &&
  (match find (namedb "content-type") ls with Some l => match hl_value l with x :: _ => negb (x =? 59) && negb (x =? 44) | [] => false end | None => true end) &&
  (match find (namedb "content-encoding") ls with Some _ => false | None => true end).
Lemma messageb_sound m : messageb m = true -> good_message m.
Proof.
  unfold messageb. cbn zeta. rewrite !andb_true_iff. intros [[[[[[[[[H1 H2] H3] H4] H5] H6] H7] H8] H9] H10]. rewrite forallb_forall in H4, H5.
  split; [split; [|split; [|split; [|split]]]|split; [|split; [|split; [|split]]]].
  - apply existsb_exists in H1 as (x & Hx & Ex). apply bytes_eqb_eq in Ex. now rewrite Ex.
  - intro E. rewrite E in H2. vm_compute in H2. discriminate.
  - destruct (rq_target (m_req m)); discriminate.
  - apply Forall_forall. intros c Hc. specialize (H4 c Hc). lia.
  - apply Forall_forall. intros l Hl. apply hlineb_sound. now apply H5.
  - apply N.ltb_lt in H6. exact H6.
  - now apply contentb_sound.
  - now apply framedb_sound.
  - intros l Hl. pose proof (find_first "content-type" (rq_lines (m_req m))) as F. destruct (find (namedb "content-type") _) as [l'|] eqn:E.
    + rewrite (first_line_fun _ _ _ _ Hl F) in *. destruct (hl_value l') as [|x v]; [discriminate|]. exists x, v. split; [reflexivity|]. lia.
    + exfalso. exact (first_not_none _ _ _ Hl F).
  - pose proof (find_first "content-encoding" (rq_lines (m_req m))) as F. destruct (find (namedb "content-encoding") _); [discriminate|exact F].
Qed.
Lemma messagesb_sound ms : forallb messageb ms = true -> Forall good_message ms.
Proof. intro H. rewrite forallb_forall in H. apply Forall_forall. intros m Hm. apply messageb_sound. now apply H. Qed.
Lemma no_cut_length c y : no_cut c y -> (0 < length y <= S (length (content_text c)))%nat.
Proof.
  intros [c'|cs la tr c1 ck c2 x z E1 E2 Nx Nz|c1 ck c2 la tr|cs la tr]; unfold content_text; cbn [coded_text].
  - cbn [app length]. lia.
  - rewrite E1, chunks_text_app, chunks_text_cons, E2, !app_length. cbn [length]. assert (0 < length z)%nat by (destruct z; [congruence|cbn; lia]). lia.
  - replace ((c1 ++ ck :: c2) ++ [la]) with ((c1 ++ [ck]) ++ (c2 ++ [la])) by now rewrite <- !app_assoc. rewrite (chunks_text_app (c1 ++ [ck])), !app_length. cbn [length]. lia.
  - rewrite !app_length. cbn [length]. lia.
Qed.
Lemma clean_whole ms : Forall good_message ms -> clean ms [texts ms] [].
Proof.
  intros G a b before m after y Ea Em Hy E. pose proof (no_cut_length _ _ Hy) as L. assert (B : concat b = [] \/ concat b = texts ms).
  { destruct a as [|x a]; [cbn in Ea; subst b; right; cbn; apply app_nil_r|]. injection Ea as _ Ea. destruct a, b; try discriminate; now left. }
  rewrite app_nil_r in E. apply (f_equal (@length N)) in E. rewrite app_length in E. destruct B as [B | B]; rewrite B in E; [cbn [length] in E; lia|].
  rewrite Em in E. unfold texts in E at 1. rewrite map_app, concat_app, app_length in E. cbn [map concat] in E. rewrite app_length in E. fold (texts after) in E.
  rewrite message_text_line in E. unfold after_line in E. rewrite !app_length in E. cbn [length] in E. lia.
Qed.
Lemma header_tables e ms cs : accepting e -> Forall good_message ms -> fits e ms -> ~ In [] cs -> concat cs = texts ms -> clean ms cs [] -> ms <> [] ->
  exists s s1, history e (requests_in cs) = (ROk (all_data cs), s) /\ history e (requests_in [texts ms]) = (ROk (all_data [texts ms]), s1) /\
    forall k m, nth_error ms k = Some m -> exists t t1, tx_get (N.of_nat k) (s_txs s) = Some t /\ tx_get (N.of_nat k) (s_txs s1) = Some t1 /\
      map view (t_headers (x_req t)) = map view (t_headers (x_req t1)) /\ map view (t_headers (x_req t1)) = merged_table (map kv_of (rq_lines (m_req m) ++ trailer_of (m_content m))).
Proof.
  intros A G F Ne E Cl Nm. destruct (stream_parsed e ms cs A G F Ne E Cl) as (s & H & _ & Tx).
  destruct (stream_parsed e ms [texts ms] A G F) as (s1 & H1 & _ & Tx1); [intros [Z | []]; apply Nm, texts_nil, Z|cbn; apply app_nil_r|now apply clean_whole|].
  exists s, s1. split; [exact H|]. split; [exact H1|]. intros k m Hk. destruct (Tx k m Hk) as (t & Ht & Ho), (Tx1 k m Hk) as (t1 & Ht1 & Ho1). exists t, t1.
  split; [exact Ht|]. split; [exact Ht1|]. split; [|exact (ho_headers _ _ (proj1 Ho1))]. rewrite (ho_headers _ _ (proj1 Ho)), (ho_headers _ _ (proj1 Ho1)). reflexivity.
Qed.
Lemma bodies_exact e ms cs : accepting e -> Forall good_message ms -> fits e ms -> ~ In [] cs -> concat cs = texts ms -> clean ms cs [] ->
  exists s, history e (requests_in cs) = (ROk (all_data cs), s) /\ forall k m, nth_error ms k = Some m ->
    body_of (N.of_nat k) (events s) = m_body m /\
    exists t, tx_get (N.of_nat k) (s_txs s) = Some t /\ t_elen (x_req t) = blen (m_body m) /\ t_mlen (x_req t) = blen (coded_text (m_content m)).
Proof.
  intros A G F Ne E Cl. destruct (stream_parsed e ms cs A G F Ne E Cl) as (s & H & Se & Tx). exists s. split; [exact H|]. intros k m Hk.
  split; [rewrite <- (N.add_0_l (N.of_nat k)); exact (body_of_stream _ _ _ Se k m Hk)|]. destruct (Tx k m Hk) as (t & Ht & Ho). exists t. split; [exact Ht|]. split; [exact (ho_entity _ _ (proj1 Ho))|exact (ho_message _ _ (proj1 Ho))].
Qed.
Lemma plain_exact e ms cs : accepting e -> Forall good_message ms -> fits e ms -> ~ In [] cs -> concat cs = texts ms -> clean ms cs [] ->
  exists s, history e (requests_in cs) = (ROk (all_data cs), s) /\ forall k m b, nth_error ms k = Some m -> m_content m = Plain b ->
    body_of (N.of_nat k) (events s) = b /\
    exists t, tx_get (N.of_nat k) (s_txs s) = Some t /\ t_elen (x_req t) = blen b /\ t_mlen (x_req t) = blen b.
Proof.
  intros A G F Ne E Cl. destruct (bodies_exact e ms cs A G F Ne E Cl) as (s & H & X). exists s. split; [exact H|]. intros k m b Hk Ec. specialize (X k m Hk). unfold m_body in X. rewrite Ec in X. exact X.
Qed.
Lemma chunked_exact e ms cs : accepting e -> Forall good_message ms -> fits e ms -> ~ In [] cs -> concat cs = texts ms -> clean ms cs [] ->
  exists s, history e (requests_in cs) = (ROk (all_data cs), s) /\ forall k m chunks last trailer, nth_error ms k = Some m ->
    m_content m = Chunked chunks last trailer ->
    body_of (N.of_nat k) (events s) = concat (map ck_data chunks) /\
    exists t, tx_get (N.of_nat k) (s_txs s) = Some t /\ t_elen (x_req t) = blen (concat (map ck_data chunks)) /\
      t_mlen (x_req t) = blen (concat (map chunk_text (chunks ++ [last]))).
Proof.
  intros A G F Ne E Cl. destruct (bodies_exact e ms cs A G F Ne E Cl) as (s & H & X). exists s. split; [exact H|]. intros k m ch la trl Hk Ec. specialize (X k m Hk). unfold m_body in X. rewrite Ec in X. exact X.
Qed.
Lemma plain_prompt e ms m cs b1 b2 : accepting e -> Forall good_message (ms ++ [m]) -> fits e (ms ++ [m]) ->
  ~ In [] cs -> m_content m = Plain (b1 ++ b2) -> b2 <> [] -> concat cs ++ b2 = texts (ms ++ [m]) -> clean (ms ++ [m]) cs b2 ->
  exists s t, history e (requests_in cs) = (ROk (all_data cs), s) /\ body_of (N.of_nat (length ms)) (events s) = b1 /\
    tx_get (N.of_nat (length ms)) (s_txs s) = Some t /\ t_elen (x_req t) = blen b1 /\ t_mlen (x_req t) = blen b1.
Proof.
  intros A G F Ne Ec Nb E Cl. destruct (body_prompt e ms m cs b1 b2 A G F Ne) as (s & t & H & X); [rewrite Ec; unfold content_text; cbn; apply app_nil_r|exact Nb|exact E|exact Cl|].
  exists s, t. split; [exact H|]. rewrite Ec in X. cbn [body_before coded_text] in X. rewrite firstn_app, Nat.sub_diag, firstn_all, firstn_O, app_nil_r in X.
  replace (N.min (blen b1) (blen (b1 ++ b2))) with (blen b1) in X; [exact X|]. unfold blen. rewrite app_length. lia.
Qed.
Lemma chunked_prompt e ms m cs x y chunks last trailer : accepting e -> Forall good_message (ms ++ [m]) -> fits e (ms ++ [m]) ->
  ~ In [] cs -> m_content m = Chunked chunks last trailer -> content_text (m_content m) = x ++ y -> y <> [] ->
  concat cs ++ y = texts (ms ++ [m]) -> clean (ms ++ [m]) cs y ->
  exists s t, history e (requests_in cs) = (ROk (all_data cs), s) /\
    body_of (N.of_nat (length ms)) (events s) = chunks_before chunks (length x) /\
    tx_get (N.of_nat (length ms)) (s_txs s) = Some t /\ t_elen (x_req t) = blen (chunks_before chunks (length x)) /\
    t_mlen (x_req t) = N.min (blen x) (blen (concat (map chunk_text (chunks ++ [last])))).
Proof.
  intros A G F Ne Ec Ex Ny E Cl. destruct (body_prompt e ms m cs x y A G F Ne Ex Ny E Cl) as (s & t & H & X). exists s, t. split; [exact H|]. rewrite Ec in X. exact X.
Qed.
