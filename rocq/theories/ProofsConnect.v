(** Tunnels: the request for one, in segments. *)
From Verif Require Import Base Spec SpecTx SpecMsg SpecResp SpecConnect ModelUtil ModelBstr ModelParsers ModelHeaders ModelUri ModelState ModelTx ModelConn SpecConn ProofsBase ProofsBytes ProofsParsers ProofsHeaders ProofsTx ProofsConn ProofsCore ProofsLoop ProofsHist ProofsEval ProofsBody ProofsHead ProofsFrame ProofsStream ProofsChunk ProofsMsg.

Lemma connect_known : In (s2b "CONNECT") known_methods.
Proof. vm_compute. intuition reflexivity. Qed.
Lemma connect_fair r : connect_request r -> fair_request r.
Proof. intros (H1 & H2 & H3 & H4 & _). split; [rewrite H1; exact connect_known|]. auto. Qed.
(** * The request line *)
Definition hosted (tg : bytes) (t : tx) : Prop :=
  forall h n, host_text tg h n -> exists u, x_raw t = Some u /\ u_hostname u = Some (lowers h) /\ u_port_number u = n.
Lemma stored_raw e t : x_raw (stored e t) = x_raw t.
Proof.
  unfold stored, store_normalized_uri, check_uri_hostname. destruct (parsed_hostname t) as [h|]; [destruct (validate_hostname _ _)|];
    (match goal with |- x_raw (fst (match x_parsed ?z with _ => _ end)) = _ => destruct (x_parsed z) end; [destruct (generate_normalized_uri _ _) as [[? ?] ?]|]; reflexivity).
Qed.
Lemma hostport_query ip6 tg fl : u_query (fst (parse_uri_hostport ip6 uri_default tg fl)) = None.
Proof. unfold parse_uri_hostport. destruct (parse_hostport ip6 tg) as [rest [[h [[po [n|]]|]] v]| |]; reflexivity. Qed.
Lemma connect_line e r : connect_request r -> exists t1, parse_request_uri (e_ip6 e) (c_dcfg (e_cfg e)) (with_line r start_tx) = Some t1 /\
  keeps (with_line r start_tx) (stored e t1) /\ hosted (rq_target r) (stored e t1) /\ told_params (e_cfg e) t1 = [].
Proof.
  intros (Hm & _). unfold parse_request_uri at 1.
  change (x_methodn (with_line r start_tx)) with (MKnown (rq_method r)). rewrite Hm. change (is_method (MKnown (s2b "CONNECT")) "CONNECT") with true. cbv iota.
  change (x_uri (with_line r start_tx)) with (Some (rq_target r)). cbv iota.
  assert (K : exists raw fl, parse_uri_hostport (e_ip6 e) uri_default (rq_target r) (x_flags (with_line r start_tx)) = (raw, fl)) by (eexists _, _; apply surjective_pairing).
  destruct K as (raw & fl & K). rewrite K. change (x_parsed (set_x_raw (Some raw) (set_x_flags fl (with_line r start_tx)))) with (@None uri). cbn [is_some].
  set (t0 := set_x_raw (Some raw) (set_x_flags fl (with_line r start_tx))). exists (normalize_parsed_uri (c_dcfg (e_cfg e)) raw t0). split; [reflexivity|].
  assert (Q : u_query raw = None) by (pose proof (hostport_query (e_ip6 e) (rq_target r) (x_flags (with_line r start_tx))) as Q; rewrite K in Q; exact Q).
  assert (N0 : keeps t0 (normalize_parsed_uri (c_dcfg (e_cfg e)) raw t0) /\ x_raw (normalize_parsed_uri (c_dcfg (e_cfg e)) raw t0) = Some raw /\ query_params (c_dcfg (e_cfg e)) (normalize_parsed_uri (c_dcfg (e_cfg e)) raw t0) = []).
  { unfold normalize_parsed_uri. destruct (normalized_username _ _ _). destruct (normalized_password _ _ _). destruct (normalized_hostname _ _ _). destruct (normalized_port _ _).
    destruct (normalized_fragment _ _ _). destruct (normalized_path _ _ _ _) as [[? ?] ?]. split; [repeat split; reflexivity|]. split; [reflexivity|]. unfold query_params. cbn [x_parsed set_x_expected set_x_flags set_x_parsed u_query]. now rewrite Q. }
  destruct N0 as (N1 & N2 & N3). split; [|split].
  - eapply keeps_trans; [|eapply keeps_trans; [apply keeps_hostname|apply keeps_norm]]. exact N1.
  - intros h n Ht. rewrite stored_raw, N2. exists raw. split; [reflexivity|]. destruct (hostport_good (e_ip6 e) _ _ _ Ht) as (rest & pn & b & Ep & <-).
    unfold parse_uri_hostport in K. rewrite Ep in K. destruct pn as [[po [p|]]|]; injection K as <- _; split; reflexivity.
  - unfold told_params. rewrite N3. destruct (_ && _); reflexivity.
Qed.

(** * The head *)
Section Head.
Variables (e : env) (r : request) (t : tx).
Hypothesis G : connect_request r.
Hypothesis K : keeps (with_line r start_tx) t.
Hypothesis Hd : hosted (rq_target r) t.
Let ls := rq_lines r.
Let T := add_headers SReq (map ph_of ls) (upd_dir SReq (set_t_prog PHeaders) t).
Lemma cgood : Forall good_hline ls. Proof using G. apply G. Qed.
Lemma chead_merged : merged (map kv_of ls) (x_req T).
Proof using G K.
  destruct K as (K1 & _). rewrite <- kv_ph_of. apply (add_headers_merged SReq); [cbn; rewrite K1; reflexivity..|].
  rewrite kv_ph_of. pose proof cgood as Gl. apply Forall_forall. intros x Hx. apply in_map_iff in Hx as (l & <- & Hl). rewrite Forall_forall in Gl.
  apply token_tight. apply (Gl l Hl).
Qed.
Lemma chead_table : map view (t_headers (x_req T)) = merged_table (map kv_of ls).
Proof using G K. apply chead_merged. Qed.
Lemma cflagged b : t_headers (x_req (if b : bool then add_flag MULTI_PACKET_HEAD T else T)) = t_headers (x_req T).
Proof using. destruct b; reflexivity. Qed.
Lemma chead_settled : head_ok e T.
Proof using G K.
  intro b. pose proof (cflagged b) as Fh. set (X := if b then _ else T) in *. clearbody X. unfold process_request_headers.
  pose proof (framing_settles X) as F. destruct (request_framing X) as [t1 lg1]. cbn [fst] in F. pose proof (settles_trans _ _ _ F (host_settles (e_ip6 e) t1)) as H.
  destruct H as ((c & l & ct & E) & _). rewrite E. change (t_headers (set_t_ctype ct (set_t_clen l (set_t_coding c (x_req X))))) with (t_headers (x_req X)). rewrite Fh. pose proof cgood as Gl.
  destruct (first_or_none "content-type" ls) as [Hn | (l0 & Hl)].
  - rewrite (get_lacks _ _ (table_lacks _ _ Gl chead_table _ Hn)). reflexivity.
  - destruct (table_first _ _ Gl chead_table _ _ Hl) as (h & Hh & (w & Ew) & _). rewrite (get_the_header _ _ _ Hh), Ew.
    assert (Ty : typed ls) by apply G. destruct (Ty _ Hl) as (x & v & Ev & N1 & N2). rewrite Ev. destruct (content_type_good x v w) as [rr ->]; [|assumption..|reflexivity].
    destruct Hl as (b1 & a1 & E1 & _). rewrite Forall_forall in Gl. assert (I : In l0 ls) by (rewrite E1; apply in_or_app; right; now left).
    destruct (Gl _ I) as (_ & _ & _ & _ & _ & S & _). apply (S _ _ Ev).
Qed.
(** What is known of the transaction when the head was read. *)
Record cready (t' : tx) : Prop := {
  cr_asked : tunnel_asked r PHeaders t'; cr_cep : t_cep (x_req t') = CeNone; cr_coding : t_coding (x_req t') = CdNoBody;
  cr_is09 : x_is09 t' = false; cr_resp : reply_part t' = reply_part tx_new }.
Lemma chead_ready t' : head_done e T t' -> cready t'.
Proof using G K Hd.
  intros (b & lg & t2 & E & ->). pose proof (process_settles _ _ _ _ _ _ E) as S. pose proof chead_table as Ht. pose proof chead_merged as Hm. pose proof (cflagged b) as Fh.
  pose proof cgood as Gl. destruct G as (Gm & _ & _ & _ & _ & Gc & Gt & Ge).
  assert (Cd : t_coding (x_req t2) = CdNoBody).
  { eapply framing_none; [exact E|rewrite Fh; eapply table_lacks; eassumption|rewrite Fh; eapply table_lacks; eassumption]. }
  destruct (add_headers_gains (map ph_of ls) (upd_dir SReq (set_t_prog PHeaders) t)) as ((rr & h & E1) & A1 & A2 & A3 & A4 & A5 & A6 & A7). fold T in E1, A1, A2, A3, A4, A5, A6, A7.
  change (x_where (upd_dir SReq (set_t_prog PHeaders) t)) with (x_where t) in A6. injection A6 as A6 A8 A9.
  clear E. destruct S as ((c & l & ct & E) & S1 & S2 & S3 & S4 & S5 & S6).
  destruct K as (K1 & K2 & K3 & K4 & K5 & K6).
  assert (Ed : x_req (with_decompressors SReq (e_cfg e) t2) = set_t_cep CeNone (set_t_ce CeNone (x_req t2))).
  { unfold with_decompressors, initialize_decompressors. cbn [x_dir]. rewrite get_lacks.
    - destruct (decompression_enabled _ _); reflexivity.
    - rewrite E. match goal with |- lacks (t_headers (set_t_ctype _ (set_t_clen _ (set_t_coding _ ?z)))) _ => change (lacks (t_headers z) (s2b "content-encoding")) end. rewrite Fh. eapply table_lacks; eassumption. }
  assert (Xr : x_req (if b then add_flag MULTI_PACKET_HEAD T else T) = x_req T) by (destruct b; reflexivity).
  assert (Z1 : reply_part t2 = reply_part T) by (rewrite S1; destruct b; reflexivity).
  assert (Z2 : x_method t2 = x_method T) by (rewrite S2; destruct b; reflexivity).
  assert (Z3 : x_methodn t2 = x_methodn T) by (rewrite S3; destruct b; reflexivity).
  assert (Z4 : x_uri t2 = x_uri T) by (rewrite S4; destruct b; reflexivity).
  assert (Z5 : x_is09 t2 = x_is09 T) by (rewrite S5; destruct b; reflexivity).
  assert (Z6 : x_raw t2 = x_raw T) by (rewrite S6; destruct b; reflexivity).
  rewrite Xr in E. clear S1 S2 S3 S4 S5 S6.
  constructor; [constructor; rewrite ?Ed; cbn| | | |]; rewrite ?Ed; cbn.
  - rewrite Z2, A2. cbn. rewrite K3. cbn. now rewrite Gm.
  - rewrite Z3, A3. cbn. rewrite K4. cbn. now rewrite Gm.
  - rewrite Z4, A4. cbn. rewrite K5. reflexivity.
  - intros h0 n0 H0. rewrite Z6, A6. exact (Hd h0 n0 H0).
  - rewrite E, E1. cbn. rewrite K1. reflexivity.
  - rewrite E. exact Ht.
  - rewrite E, E1. cbn. rewrite K1. reflexivity.
  - rewrite E, E1. cbn. rewrite K1. reflexivity.
  - rewrite E, E1. reflexivity.
  - reflexivity.
  - exact Cd.
  - rewrite Z5, A5. cbn. rewrite K6. reflexivity.
  - change (reply_part t2 = reply_part tx_new). rewrite Z1, A1. change (reply_part t = reply_part tx_new). rewrite K2. reflexivity.
Qed.
End Head.

(** The request parser waiting for the answer. *)
Record waiting (i : N) (t : tx) (tr : list (event * status)) (C : ctx) (s : st) : Prop := {
  wt_state : d_state (s_req s) = StConnectWait; wt_live : live_status (d_status (s_req s)); wt_recv : d_recv (s_req s) = None;
  wt_buf : d_buf (s_req s) = []; wt_header : d_header (s_req s) = None; wt_idx : s_ridx s = i; wt_tx : tx_get i (s_txs s) = Some t;
  wt_trace : s_trace s = tr; wt_outside : outside s = cx_rest C; wt_others : forall j, j <> i -> tx_get j (s_txs s) = cx_table C j;
  wt_size : (length (s_txs s) <= S (cx_size C))%nat }.
(** * From call to call *)
Section Ask.
Variables (e : env) (r : request) (i : N) (C : ctx) (tr : list (event * status)).
Hypothesis Y : yes e.
Hypothesis G : connect_request r.
Hypothesis Lim : blen (request_text r) <= c_field_limit (e_cfg e).
Hypothesis Sz : N.of_nat (cx_size C) < c_max_tx (e_cfg e).
Hypothesis Aw : d_status (snd (fst (cx_rest C))) <> SsDataOther.
Definition cline_events : list event := [ev_start i; mk_ev HRequestUriNormalize i PlNone; mk_ev HRequestLine i PlNone].
Definition chead_events (es : list event) : Prop :=
  exists hs, concat hs = block_text (rq_lines r) ++ [13; 10] /\ es = cline_events ++ map (ev_header i) hs ++ [mk_ev HRequestHeaders i PlNone].
Definition cafter : bytes := block_text (rq_lines r) ++ [13; 10].
Lemma ctext : request_text r = request_line_text r ++ cafter.
Proof using. reflexivity. Qed.
(** The bytes [S] of the request are still to come. *)
Inductive cpaused : bytes -> st -> Prop :=
| cp_idle s : resting [] i tr C s -> cpaused (request_text r) s
| cp_line p q s : p ++ q = request_line_text r -> q <> [] -> mile StLine None p None i start_tx (tr_of [ev_start i] tr) C s -> cpaused (q ++ cafter) s
| cp_headers ls1 ls2 p q t hs s : rq_lines r = ls1 ++ ls2 -> keeps (with_line r start_tx) t -> hosted (rq_target r) t ->
    p ++ q = block_text ls2 ++ [13; 10] -> q <> [] -> ls2 <> [] \/ (p = [] /\ rq_lines r = []) -> concat hs = block_text ls1 ++ p ->
    mile StHeaders (Some HRequestHeaderData) [] (Some p) i (add_headers SReq (map ph_of ls1) (upd_dir SReq (set_t_prog PHeaders) t))
      (tr_of (cline_events ++ map (ev_header i) hs) tr) C s -> cpaused q s
| cp_wait t es s : cready r t -> chead_events es -> waiting i t (tr_of es tr) C s -> cpaused [] s.
Definition coutcome (S : bytes) (s : st) : Prop := exists s', runs e s s' /\ cpaused S s'.
Lemma coutcome_next S s s1 : step SReq e s = (ROk None, s1) -> coutcome S s1 -> coutcome S s.
Proof using. intros H (s' & R & P). exists s'. split; [exact (runs_next _ _ _ _ H R)|exact P]. Qed.
Lemma cno_lf p q : p ++ q = request_line_text r -> q <> [] -> ~ In 10 p.
Proof using G.
  intros E Nq I. destruct (exists_last Nq) as (q' & x & ->). rewrite app_assoc in E. destruct (line_no_lf _ (connect_fair _ G)) as (l & E2 & Nl).
  rewrite E2 in E. apply app_inj_tail in E as [E _]. apply Nl. rewrite <- E. apply in_or_app. now left.
Qed.
Lemma ph_wait s a k cb t es : mile StConnectCheck None [] None i t es C s -> x_methodn t = MKnown (s2b "CONNECT") -> rest_of a [] k cb s ->
  exists s', runs e s s' /\ waiting i t es C s'.
Proof using.
  intros [M1 M2 M3 M4 M5 M6 M7 M8 M9 M10 M11 M12] Hm R. rewrite <- M7 in M8.
  assert (H : handle_state SReq e s = (RErr SDataOther, set_s_req (set_d_status SsDataOther (set_d_state StConnectWait (s_req s))) s)).
  { unfold handle_state, by_side, handle_request_state. unfold bind at 1, get_d at 1. cbn [s_dir]. rewrite M1. unfold request_connect_check. unfold bind at 1.
    rewrite (need_tx_get SReq _ _ _ M8). rewrite Hm. reflexivity. }
  apply (step_err SReq) in H; [|exact (rest_no_gap _ _ _ _ _ R)].
  assert (P : pd_is_empty (s_input s) = true) by (unfold pd_is_empty; rewrite (rest_pd_len _ _ _ _ _ R); reflexivity).
  unfold after_step in H. unfold bind at 1, input at 1 in H. cbn [s_input set_s_req] in H. change (s_input (set_s_req _ s)) with (s_input s) in H. rewrite P in H. cbv zeta in H.
  eexists. split; [apply runs_last; exact H|]. rewrite M7 in M8. constructor; cbn; try assumption; try reflexivity. now left.
Qed.
Lemma cfrom_headers S s a rest k t p q ls1 ls2 hs : S <> [10] -> rq_lines r = ls1 ++ ls2 -> keeps (with_line r start_tx) t -> hosted (rq_target r) t ->
  opt_text p ++ q = block_text ls2 ++ [13; 10] -> q <> [] -> ls2 <> [] \/ (opt_text p = [] /\ rq_lines r = []) -> concat hs = block_text ls1 ++ opt_text p ->
  mile StHeaders (Some HRequestHeaderData) [] p i (add_headers SReq (map ph_of ls1) (upd_dir SReq (set_t_prog PHeaders) t))
      (tr_of (cline_events ++ map (ev_header i) hs) tr) C s ->
  rest_of a rest k k s -> rest ++ S = q -> coutcome S s.
Proof using Y G Lim Sz.
  intros Cl El K Ad Eq Nq Hp Eh M R E. pose proof (cgood r G) as Gl. rewrite El in Gl. apply Forall_app in Gl as [_ Gl].
  assert (Tq : t_hpc (x_req (add_headers SReq (map ph_of ls1) (upd_dir SReq (set_t_prog PHeaders) t))) = false /\ t_prog (x_req (add_headers SReq (map ph_of ls1) (upd_dir SReq (set_t_prog PHeaders) t))) = PHeaders).
  { destruct (add_headers_gains (map ph_of ls1) (upd_dir SReq (set_t_prog PHeaders) t)) as ((r0 & h & ->) & _). destruct K as (K1 & _). cbn. rewrite K1. split; reflexivity. }
  destruct Tq as [Th Tp].
  assert (Ok : head_ok e (add_headers SReq (map ph_of ls2) (add_headers SReq (map ph_of ls1) (upd_dir SReq (set_t_prog PHeaders) t)))).
  { rewrite <- add_headers_app, <- map_app, <- El. exact (chead_settled e r t G K). }
  assert (Go : forall t' es2, head_done e (add_headers SReq (map ph_of ls2) (add_headers SReq (map ph_of ls1) (upd_dir SReq (set_t_prog PHeaders) t))) t' ->
     es2 = (cline_events ++ map (ev_header i) hs) ++ [ev_header i q] ++ [mk_ev HRequestHeaders i PlNone] -> cready r t' /\ chead_events es2).
  { intros t' es2 Hd ->. split.
    - rewrite <- add_headers_app, <- map_app, <- El in Hd. exact (chead_ready e r t G K Ad t' Hd).
    - exists (hs ++ [q]). split; [rewrite concat_app, Eh, El; cbn [concat]; rewrite app_nil_r, <- app_assoc, Eq; unfold block_text; now rewrite map_app, concat_app, <- app_assoc|].
      rewrite map_app. cbn [map]. now rewrite <- !app_assoc. }
  destruct S as [|y0 y].
  - rewrite app_nil_r in E. subst q.
    assert (D : exists s' t' k', step SReq e s = (ROk None, s') /\ rest_of a [] k' k' s' /\ head_done e (add_headers SReq (map ph_of ls2) (add_headers SReq (map ph_of ls1) (upd_dir SReq (set_t_prog PHeaders) t))) t' /\
       mile StConnectCheck None [] None i t' (tr_of ((cline_events ++ map (ev_header i) hs) ++ [ev_header i rest] ++ [mk_ev HRequestHeaders i PlNone]) tr) C s').
    { destruct ls2 as [|l ls2].
      - destruct Hp as [Hp | [Hp Hl]]; [congruence|]. rewrite Hp in Eq. cbn in Eq. subst rest. change (rest_of a ([13; 10] ++ []) k k s) in R.
        destruct (ph_headers_none e C s a _ p [] k i _ Y M Hp Th Tp R I) as (s' & t' & H1 & H2 & H3 & H4); [exact Ok|exists s', t', (k + 2); split; [exact H1|split; [exact H2|split; [exact H3|rewrite tr_of_app; exact H4]]]].
      - rewrite <- (app_nil_r rest) in R. destruct (ph_headers e C s a (l :: ls2) _ p rest [] k i _ Y Gl ltac:(discriminate) M Th Tp R Nq Eq Ok) as (s' & t' & H1 & H2 & H3 & H4).
        exists s', t', (k + blen rest). split; [exact H1|split; [exact H2|split; [exact H3|rewrite tr_of_app; exact H4]]]. }
    destruct D as (s1 & t' & k' & H1 & R1 & Hd & M1). apply (coutcome_next _ _ _ H1). destruct (Go t' _ Hd eq_refl) as [Rd He].
    destruct (ph_wait _ _ _ _ _ _ M1 (ta_number _ _ _ (cr_asked _ _ Rd)) R1) as (s2 & R2 & W). exists s2. split; [exact R2|]. exact (cp_wait _ _ _ Rd He W).
  - rewrite <- E, app_assoc in Eq. destruct (head_cut ls2 (opt_text p ++ rest) (y0 :: y) Gl Eq) as (l1 & l2 & q' & -> & E3 & E4 & E5 & E6); [discriminate|exact Cl|].
    apply Forall_app in Gl as [Gl1 _].
    destruct (ph_headers_part e C s a l1 _ p rest q' k i _ _ Y Gl1 M Th R E3 E5) as (s1 & H1 & M1).
    { etransitivity; [|exact Lim]. unfold request_text. rewrite El. unfold block_text in *. rewrite !map_app, !concat_app, <- !app_assoc.
      rewrite <- E4. unfold blen. rewrite !app_length. lia. }
    exists s1. split; [exact H1|]. rewrite <- add_headers_app, <- map_app in M1.
    apply (cp_headers (ls1 ++ l1) l2 q' (y0 :: y) t (hs ++ [rest])); [now rewrite El, app_assoc|assumption|assumption|exact E4|discriminate|destruct E6 as [E6 | [E6 E7]]; [now left|right; split; [exact E6|]]; destruct Hp as [Hp | [_ Hp]]; [congruence|exact Hp]| |].
    + rewrite concat_app, Eh. cbn [concat]. rewrite app_nil_r, <- app_assoc, E3. unfold block_text. now rewrite map_app, concat_app, <- app_assoc.
    + rewrite (map_app (ev_header i)). cbn [map]. rewrite app_assoc, tr_of_app. exact M1.
Qed.
Lemma cfrom_line S s a rest k cb p q : S <> [10] -> p ++ q = request_line_text r -> q <> [] -> mile StLine None p None i start_tx (tr_of [ev_start i] tr) C s ->
  rest_of a rest k cb s -> rest ++ S = q ++ cafter -> coutcome S s.
Proof using Y G Lim Sz.
  intros Cl Eq Nq M R E.
  assert (Li : blen (request_line_text r) <= c_field_limit (e_cfg e)) by (etransitivity; [|exact Lim]; unfold request_text, blen; rewrite !app_length; lia).
  assert (Fin : forall tail, rest = q ++ tail -> cafter = tail ++ S -> coutcome S s).
  { intros tail -> Et. destruct (connect_line e r G) as (t1 & P1 & P2 & P3 & P4).
    destruct (ph_line_any e C s a r t1 _ p q tail k cb i start_tx Y (connect_fair r G) M P1 R Eq Nq Li) as (s1 & H1 & R1 & M1).
    apply (coutcome_next _ _ _ H1). rewrite P4 in M1. cbn [param_events map rev app] in M1.
    destruct (ph_protocol e C s1 a tail _ (k + blen q) cb i (stored e t1) M1) as (s2 & H2 & R2 & M2); [destruct P2 as (_ & _ & _ & _ & _ & ->); reflexivity|exact R1|].
    apply (coutcome_next _ _ _ H2).
    apply (cfrom_headers S s2 a tail (k + blen q) (stored e t1) None cafter [] (rq_lines r) []); [exact Cl|reflexivity|assumption|assumption|reflexivity| | |reflexivity| |exact R2|].
    - unfold cafter. destruct (block_text _); discriminate.
    - destruct (rq_lines r); [right; split; reflexivity|left; discriminate].
    - exact M2.
    - symmetry. exact Et. }
  apply app_split in E as [(y & E1 & E2) | (y & E1 & E2)]; [|apply (Fin y); assumption].
  destruct y as [|y0 y]; [rewrite app_nil_r in E1; apply (Fin []); [now rewrite app_nil_r|symmetry; exact E2]|].
  assert (Eq' : (p ++ rest) ++ (y0 :: y) = request_line_text r) by (rewrite <- app_assoc, <- E1; exact Eq).
  destruct (ph_line_part e C s a _ p rest k cb i _ M R) as (s1 & H1 & M1).
  { intro I. apply (cno_lf _ _ Eq'); [discriminate|]. apply in_or_app. now right. }
  { etransitivity; [|exact Li]. rewrite <- Eq'. unfold blen. rewrite !app_length. lia. }
  exists s1. split; [exact H1|]. subst S. apply (cp_line (p ++ rest) (y0 :: y)); [exact Eq'|discriminate|exact M1].
Qed.
Lemma copened_waiting c t es s : waiting i t es C s -> waiting i t es C (opened SReq c s).
Proof using Aw.
  intros [M1 M2 M3 M4 M5 M6 M7 M8 M9 M10 M11]. pose proof Aw as A. rewrite <- M9 in A. rewrite opened_awake by exact A. destruct s as [rq rs oe cc ci ri pi txs cf si so trc lg inp]. constructor; assumption.
Qed.
Lemma cgoes c S s : S <> [10] -> c <> [] -> cpaused (c ++ S) s -> coutcome S (opened SReq c s).
Proof using Y G Lim Sz Aw.
  intros Cl Nc P. remember (c ++ S) as X eqn:EX. pose proof (opened_rest c s) as R. destruct P as [s Q|p q s Eq Nq M|ls1 ls2 p q t hs s El K Ad Eq Nq Hp Eh M|t es s Rd He W].
  - destruct (ph_start e i tr C _ c c 0 0 [] Y (opened_resting _ _ _ _ c _ Aw Q) Sz R Nc) as (s1 & H1 & R1 & M1). apply (coutcome_next _ _ _ H1).
    apply (cfrom_line S s1 c c 0 0 [] (request_line_text r) Cl eq_refl); [unfold request_line_text; destruct (rq_method r); [destruct (rq_target r)|]; discriminate|exact M1|exact R1|]. now rewrite <- EX, ctext.
  - apply (cfrom_line S _ c c 0 0 p q Cl Eq Nq (proj1 (opened_mile _ _ _ _ _ _ _ _ c _ Aw M)) R). now symmetry.
  - apply (cfrom_headers S _ c c 0 t (Some p) q ls1 ls2 hs Cl El K Ad Eq Nq Hp Eh (proj1 (opened_mile _ _ _ _ _ _ _ _ c _ Aw M)) R). now symmetry.
  - destruct c; [congruence|discriminate].
Qed.
Lemma cbufsum S s : cpaused S s -> S <> [] -> bufsum (s_req s) <= c_field_limit (e_cfg e) /\ live_status (d_status (s_req s)).
Proof using Lim Sz.
  intros P Ns. destruct P as [s Q|p q s Eq Nq M|ls1 ls2 p q t hs s El K Ad Eq Nq Hp Eh M|t es s Rd He W].
  - split; [|exact (rs_live _ _ _ _ _ Q)]. unfold bufsum. rewrite (rs_buf _ _ _ _ _ Q), (rs_header _ _ _ _ _ Q). cbn. lia.
  - split; [|exact (ml_live _ _ _ _ _ _ _ _ _ M)]. unfold bufsum. rewrite (ml_buf _ _ _ _ _ _ _ _ _ M), (ml_header _ _ _ _ _ _ _ _ _ M).
    etransitivity; [|exact Lim]. rewrite ctext, <- Eq. unfold blen. cbn. rewrite !app_length. lia.
  - split; [|exact (ml_live _ _ _ _ _ _ _ _ _ M)]. unfold bufsum. rewrite (ml_buf _ _ _ _ _ _ _ _ _ M), (ml_header _ _ _ _ _ _ _ _ _ M).
    etransitivity; [|exact Lim]. rewrite ctext. unfold cafter. rewrite El. unfold block_text in *. rewrite map_app, concat_app, <- app_assoc, <- Eq. unfold blen. cbn. rewrite !app_length. lia.
  - congruence.
Qed.
Lemma ccalls cs : forall s, ~ In [] cs -> (forall a b, cs = a ++ b -> concat b <> [10]) -> cpaused (concat cs) s ->
  exists s', run_ops (reqs cs) e s = (ROk (more (reqs cs)), s') /\ cpaused [] s'.
Proof using Y G Lim Sz Aw.
  induction cs as [|c cs IH]; intros s Ne Cl P.
  - exists s. split; [reflexivity|exact P].
  - cbn [concat] in P. assert (Nc : c <> []) by (intros ->; apply Ne; now left).
    destruct (cbufsum _ _ P) as [B L]; [destruct c; [congruence|discriminate]|].
    destruct (cgoes c (concat cs) s (Cl [c] cs eq_refl) Nc P) as (s1 & R1 & P1).
    apply (runs_data_call e c s s1 Nc B L) in R1.
    destruct (IH s1) as (s2 & R2 & P2); [intro Z; apply Ne; now right| |exact P1|].
    + intros a b ->. apply (Cl (c :: a) b). reflexivity.
    + exists s2. split; [|exact P2]. unfold reqs in *. cbn [map run_ops]. unfold bind at 1. cbn [run_op]. unfold bind at 1. rewrite R1. unfold ret at 1. unfold bind at 1. rewrite R2. reflexivity.
Qed.
(** The whole request. *)
Lemma asks cs s : concat cs = request_text r -> ~ In [] cs -> (forall a b, cs = a ++ b -> concat b <> [10]) -> resting [] i tr C s ->
  exists s' t es, run_ops (reqs cs) e s = (ROk (more (reqs cs)), s') /\ cready r t /\ chead_events es /\ waiting i t (tr_of es tr) C s'.
Proof using Y G Lim Sz Aw.
  intros Ec Ne Cl Q. destruct (ccalls cs s Ne Cl) as (s' & H & P); [rewrite Ec; constructor; exact Q|]. exists s'. inversion P as [s0 Q0 E0 E1|p q s0 Eq Nq M E0 E1|ls1 ls2 p q t hs s0 El K Ad Eq Nq Hp Eh M E0 E1|t es s0 Rd He W E0 E1].
  - rewrite ctext in E0. unfold request_line_text in E0. destruct (rq_method r); [destruct (rq_target r)|]; discriminate.
  - destruct q; [congruence|discriminate].
  - congruence.
  - exists t, es. auto.
Qed.
End Ask.
