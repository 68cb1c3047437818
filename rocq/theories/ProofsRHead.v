(** Streams of well-formed responses: what the header block makes of a transaction. *)
From Verif Require Import Base Spec SpecTx SpecMsg SpecResp ModelUtil ModelBstr ModelParsers ModelHeaders ModelState ModelTx ModelConn SpecConn ProofsBase ProofsBstr ProofsParsers ProofsHeaders ProofsTx ProofsConn ProofsCore ProofsLoop ProofsHist ProofsEval ProofsBody ProofsHead ProofsFrame ProofsStream ProofsChunk ProofsMsg ProofsRStream.

Lemma log_eval lv c e s : exists l, log lv c e s = (ROk tt, set_s_logs l s).
Proof. unfold log. destruct (_ <=? _); eexists; [reflexivity|]. instantiate (1 := s_logs s). now destruct s. Qed.
Lemma when_log_eval b lv c e s : exists l, when b (log lv c) e s = (ROk tt, set_s_logs l s).
Proof. destruct b; cbn [when]; [apply log_eval|]. exists (s_logs s). now destruct s. Qed.

(** * The framing of the body *)
Definition rsettles (t t' : tx) : Prop :=
  (exists p c l ct, x_resp t' = set_t_prog p (set_t_ctype ct (set_t_clen l (set_t_coding c (x_resp t))))) /\ same_request t t' /\
  x_status t' = x_status t /\ x_statusn t' = x_statusn t /\ x_msg t' = x_msg t.
Lemma rsettles_trans a b c : rsettles a b -> rsettles b c -> rsettles a c.
Proof.
  intros ((p1 & c1 & l1 & y1 & E1) & S1 & A1 & A2 & A3) ((p2 & c2 & l2 & y2 & E2) & S2 & B1 & B2 & B3).
  split; [|split; [eapply same_request_trans; eassumption|repeat split; congruence]].
  exists p2, c2, l2, y2. rewrite E2, E1. destruct (x_resp a); reflexivity.
Qed.
Ltac rsettled t := split; [|repeat split; reflexivity]; destruct t as [? [] ? ? ? ? ? ? ? ? ? ? ? ? ? ? ? ? ? ? ? ? ? ?]; eexists _, _, _, _; cbn; unfold set_t_ctype, set_t_clen, set_t_coding, set_t_prog; cbn; reflexivity.
(** Where the parser goes on. *)
Definition goes_on (c : content) (x : pstate) (lf : option N) (t : tx) : Prop :=
  match c with
  | Plain [] => x = StFinalize
  | Plain b => x = StClKnown /\ lf = Some (blen b) /\ t_coding (x_resp t) <> CdNoBody
  | Chunked _ _ _ => x = StChunkedLength
  end.
(** The state with another transaction, log, state and length. *)
Definition reframed (x : pstate) (lf cl : option N) (t : tx) (lg : list logmsg) (s : st) : st :=
  set_s_logs lg (set_s_txs (tx_set (s_pidx s) t (s_txs s)) (set_s_resp (set_d_state x (set_d_left lf (set_d_clen cl (s_resp s)))) s)).
Lemma framing_eval e s t r : tx_get (s_pidx s) (s_txs s) = Some t -> Forall good_hline (rp_lines r) -> delimited (rp_lines r) (rp_content r) ->
  blen (coded_text (rp_content r)) < 2 ^ 64 ->
  map view (t_headers (x_resp t)) = merged_table (map kv_of (rp_lines r)) -> t_proton (x_resp t) = ProtoV1_1 -> t_prog (x_resp t) = PHeaders ->
  exists x lf cl t1 lg, response_body_framing (headers_get_nocase_nozero (t_headers (x_resp t)) (s2b "content-length")) (headers_get_nocase_nozero (t_headers (x_resp t)) (s2b "transfer-encoding")) e s =
    (ROk tt, reframed x lf cl t1 lg s) /\ rsettles t t1 /\ goes_on (rp_content r) x lf t1 /\ t_prog (x_resp t1) <> PComplete.
Proof.
  intros T Gl Dl Lb V Pn Pg. unfold response_body_framing. unfold bind at 1. rewrite (the_tx_get SResp _ _ t) by exact T. cbv zeta.
  set (ct := match headers_get_nocase_nozero (t_headers (x_resp t)) (s2b "content-type") with Some h => _ | None => None end). clearbody ct.
  set (t0 := match ct with Some _ => upd_dir SResp (set_t_ctype ct) t | None => t end).
  assert (S0 : rsettles t t0) by (unfold t0; destruct ct; rsettled t).
  assert (P0 : t_prog (x_resp t0) = PHeaders) by (unfold t0; destruct ct; exact Pg).
  assert (W : when (is_some ct) (mod_txd SResp (set_t_ctype ct)) e s = (ROk tt, set_s_txs (tx_set (s_pidx s) t0 (s_txs s)) s)).
  { unfold t0. destruct ct; cbn [is_some when].
    - unfold mod_txd. rewrite (mod_tx_get SResp _ _ _ t) by exact T. reflexivity.
    - rewrite tx_set_same by exact T. now destruct s. }
  unfold bind at 1. rewrite W. clear W. rewrite Pn. change (proto_ltb ProtoV1_1 ProtoV1_1) with false.
  set (multi := match ct with Some _ => _ | None => false end). clearbody multi. clearbody t0.
  assert (T0 : tx_get (s_pidx s) (tx_set (s_pidx s) t0 (s_txs s)) = Some t0) by apply (tx_get_set_eq _ _ _ _ T).
  destruct (rp_content r) as [bd|cs la trl].
  - destruct Dl as [(l & Hl & Nv & Dv & Lv) Te].
    rewrite (get_lacks _ (s2b "transfer-encoding")) by (eapply table_lacks; eassumption).
    destruct (table_first _ _ Gl V _ _ Hl) as (h & Hh & _ & Ev). specialize (Ev eq_refl). rewrite (get_the_header _ _ _ Hh). rewrite Ev.
    destruct s as [rq rs oe cc ci ri pi txs cf si so tr lg inp]. destruct rs as [d1 d2 d3 d4 d5 d6 d7 d8 d9 d10]. cbn in T, T0. ev.
    unfold mod_txd at 1. rewrite (mod_tx_get SResp _ _ _ t0) by exact T0. ev. rewrite tx_set_set. set (t1 := upd_dir SResp (set_t_coding CdIdentity) t0).
    assert (S1 : rsettles t t1) by (apply (rsettles_trans _ _ _ S0); unfold t1; rsettled t0).
    assert (P1 : t_prog (x_resp t1) = PHeaders) by exact P0. assert (Cd : t_coding (x_resp t1) = CdIdentity) by reflexivity. clearbody t1.
    assert (T1 : forall u, tx_get pi (tx_set pi u txs) = Some u) by (intro u; apply (tx_get_set_eq _ _ _ _ T)).
    match goal with |- context [if ?b then mod_tx SResp ?f else ?g] => set (t2 := if b then f t1 else t1);
      assert (W : (if b then mod_tx SResp f else g) e (mk_st rq (mk_dir d1 d2 d3 d4 d5 d6 d7 d8 d9 d10) oe cc ci ri pi (tx_set pi t1 txs) cf si so tr lg inp) =
        (ROk tt, mk_st rq (mk_dir d1 d2 d3 d4 d5 d6 d7 d8 d9 d10) oe cc ci ri pi (tx_set pi t2 txs) cf si so tr lg inp)) end.
    { unfold t2. destruct (fis_set _ _); [|reflexivity]. rewrite (mod_tx_get SResp _ _ _ t1) by apply T1. ev. now rewrite tx_set_set. }
    rewrite W. clear W.
    assert (S2 : rsettles t t2) by (apply (rsettles_trans _ _ _ S1); unfold t2; destruct (fis_set _ _); rsettled t1).
    assert (P2 : t_prog (x_resp t2) = PHeaders) by (unfold t2; destruct (fis_set _ _); exact P1).
    assert (C2 : t_coding (x_resp t2) = CdIdentity) by (unfold t2; destruct (fis_set _ _); exact Cd). clearbody t2.
    assert (Ln : fst (parse_content_length_log (hl_value l)) = Some (blen bd)).
    { unfold parse_content_length_log. pose proof (proj2 (parse_content_length_value (hl_value l) (blen bd))) as X. destruct (parse_content_length (hl_value l)) as [n [ws we]]. cbn [fst] in X |- *. apply X.
      exists (hl_value l). split; [now apply whole_digits|]. split; assumption. }
    destruct (parse_content_length_log (hl_value l)) as [len lgs]. cbn [fst] in Ln. subst len.
    match goal with |- context [logs lgs e ?z] => destruct (logs_eval lgs e z) as [l1 El]; rewrite El; clear El end. ev.
    unfold mod_txd at 1. rewrite (mod_tx_get SResp _ _ _ t2) by apply T1. ev. rewrite tx_set_set. set (t3 := upd_dir SResp (set_t_clen (Some (blen bd))) t2).
    assert (S3 : rsettles t t3) by (apply (rsettles_trans _ _ _ S2); unfold t3; rsettled t2).
    assert (P3 : t_prog (x_resp t3) = PHeaders) by exact P2. assert (C3 : t_coding (x_resp t3) = CdIdentity) by exact C2. clearbody t3.
    destruct bd as [|y bd].
    + change (blen [] =? 0) with true. ev. eexists StFinalize, _, _, t3, _. split; [reflexivity|]. split; [exact S3|]. split; [reflexivity|]. rewrite P3. discriminate.
    + replace (blen (y :: bd) =? 0) with false by (symmetry; apply N.eqb_neq; unfold blen; cbn; lia). ev. unfold set_progress, mod_txd. rewrite (mod_tx_get SResp _ _ _ t3) by apply T1. ev. rewrite tx_set_set.
      eexists StClKnown, _, _, _, _. split; [reflexivity|]. split; [apply (rsettles_trans _ _ _ S3); rsettled t3|]. split; [|discriminate].
      split; [reflexivity|]. split; [reflexivity|]. cbn. rewrite C3. discriminate.
  - destruct Dl as (l & Hl & Hv). destruct (table_first _ _ Gl V _ _ Hl) as (h & Hh & (w & Ew) & _). rewrite (get_the_header _ _ _ Hh).
    assert (Mn : is_some (index_of_nocase_nozero (hd_value h) (s2b "chunked")) = true).
    { apply mentions_iff; [discriminate|]. rewrite Ew. destruct (mentions_head _ w _ Hv) as [Hm' | Hz]; [exact Hm'|]. exfalso.
      apply name_eq_lowers in Hv. apply (in_map lower) in Hz. unfold lowers in Hv. rewrite Hv in Hz. vm_compute in Hz. intuition discriminate. }
    rewrite Mn. unfold bind at 1. match goal with |- context [when ?b (log ?x ?y) e ?z] => destruct (when_log_eval b x y e z) as [l1 El]; rewrite El; clear El end.
    destruct s as [rq rs oe cc ci ri pi txs cf si so tr lg inp]. destruct rs as [d1 d2 d3 d4 d5 d6 d7 d8 d9 d10]. cbn in T, T0. ev.
    assert (T1 : forall u, tx_get pi (tx_set pi u txs) = Some u) by (intro u; apply (tx_get_set_eq _ _ _ _ T)).
    unfold mod_txd at 1. rewrite (mod_tx_get SResp _ _ _ t0) by exact T0. ev. rewrite tx_set_set. set (t1 := upd_dir SResp (set_t_coding CdChunked) t0).
    assert (S1 : rsettles t t1) by (apply (rsettles_trans _ _ _ S0); unfold t1; rsettled t0). clearbody t1.
    destruct (headers_get_nocase_nozero (t_headers (x_resp t)) (s2b "content-length")); cbn [is_some]; ev.
    + rewrite (mod_tx_get SResp _ _ _ t1) by apply T1. ev. rewrite tx_set_set. unfold set_progress, mod_txd. rewrite (mod_tx_get SResp _ _ _ (add_flag REQUEST_SMUGGLING t1)) by apply T1. ev. rewrite tx_set_set.
      eexists StChunkedLength, d6, d5, _, _. split; [reflexivity|]. split; [apply (rsettles_trans _ _ _ S1); rsettled t1|]. split; [reflexivity|]. discriminate.
    + unfold set_progress, mod_txd. rewrite (mod_tx_get SResp _ _ _ t1) by apply T1. ev. rewrite tx_set_set.
      eexists StChunkedLength, d6, d5, _, _. split; [reflexivity|]. split; [apply (rsettles_trans _ _ _ S1); rsettled t1|]. split; [reflexivity|]. discriminate.
Qed.
Lemma reframed_tx x lf cl t lg s u : tx_get (s_pidx s) (s_txs s) = Some u -> tx_get (s_pidx (reframed x lf cl t lg s)) (s_txs (reframed x lf cl t lg s)) = Some t.
Proof. intro T. apply (tx_get_set_eq _ _ _ _ T). Qed.
Lemma no_line_get ls hs k : Forall good_hline ls -> map view hs = merged_table (map kv_of ls) -> (headers_get_nocase_nozero hs (s2b k) = None <-> no_line k ls).
Proof.
  intros G V. destruct (first_or_none k ls) as [H | (l & H)].
  - rewrite (get_lacks _ _ (table_lacks _ _ G V _ H)). tauto.
  - destruct (table_first _ _ G V _ _ H) as (h & Hh & _). rewrite (get_the_header _ _ _ Hh). split; [discriminate|]. intro Nn. now elim (first_not_none _ _ _ H).
Qed.
Lemma presence_eval e s t m r : tx_get (s_pidx s) (s_txs s) = Some t -> good_response m r -> d_state (s_resp s) = StBodyDetermine ->
  x_methodn t = MKnown (rq_method (m_req m)) -> x_statusn t = RnValid (rp_status r) ->
  map view (t_headers (x_resp t)) = merged_table (map kv_of (rp_lines r)) -> t_proton (x_resp t) = ProtoV1_1 -> t_prog (x_resp t) = PHeaders ->
  exists x lf cl t1 lg, response_body_presence (headers_get_nocase_nozero (t_headers (x_resp t)) (s2b "content-length")) (headers_get_nocase_nozero (t_headers (x_resp t)) (s2b "transfer-encoding")) e s =
    state_response_headers e (reframed x lf cl t1 lg s) /\ rsettles t t1 /\ goes_on (rp_content r) x lf t1 /\ t_prog (x_resp t1) <> PComplete.
Proof.
  intros T G D Mn Sn V Pn Pg. destruct G as (_ & _ & S2 & _ & _ & Gl & _ & Lb & _ & Fr & _).
  unfold response_body_presence. unfold bind at 1. rewrite (the_tx_get SResp _ _ t) by exact T. rewrite Mn, Sn. cbn [is_method].
  assert (Nb : exists x lf cl t1 lg, (mod_txd SResp (set_t_coding CdNoBody) ;; set_state SResp StFinalize) e s = (ROk tt, reframed x lf cl t1 lg s) /\ rsettles t t1 /\ x = StFinalize /\ t_prog (x_resp t1) <> PComplete).
  { unfold bind at 1, mod_txd. rewrite (mod_tx_get SResp _ _ _ t) by exact T.
    exists StFinalize, (d_left (s_resp s)), (d_clen (s_resp s)), (upd_dir SResp (set_t_coding CdNoBody) t), (s_logs s). split; [|split; [rsettled t|split; [reflexivity|cbn; rewrite Pg; discriminate]]].
    destruct s as [rq rs oe cc ci ri pi txs cf si so tr lg inp]. destruct rs as [d1 d2 d3 d4 d5 d6 d7 d8 d9 d10]. reflexivity. }
  assert (Done : forall (b1 : M unit), (exists x lf cl t1 lg, b1 e s = (ROk tt, reframed x lf cl t1 lg s) /\ rsettles t t1 /\ x = StFinalize /\ t_prog (x_resp t1) <> PComplete) -> rp_content r = Plain [] ->
    exists x lf cl t1 lg, bind b1 (fun _ => let* d := get_d SResp in
       when (negb (pstate_eqb (d_state d) StFinalize)) (response_body_framing (headers_get_nocase_nozero (t_headers (x_resp t)) (s2b "content-length")) (headers_get_nocase_nozero (t_headers (x_resp t)) (s2b "transfer-encoding"))) ;; state_response_headers) e s
       = state_response_headers e (reframed x lf cl t1 lg s) /\ rsettles t t1 /\ goes_on (rp_content r) x lf t1 /\ t_prog (x_resp t1) <> PComplete).
  { intros b1 (x & lf & cl & t1 & lg & E & S & -> & P) Ec. exists StFinalize, lf, cl, t1, lg. rewrite Ec. split; [|split; [exact S|split; [reflexivity|exact P]]].
    unfold bind at 1. rewrite E. reflexivity. }
  assert (More : forall (b1 : M unit), (exists lg, b1 e s = (ROk tt, set_s_logs lg s)) -> delimited (rp_lines r) (rp_content r) ->
    exists x lf cl t1 lg, bind b1 (fun _ => let* d := get_d SResp in
       when (negb (pstate_eqb (d_state d) StFinalize)) (response_body_framing (headers_get_nocase_nozero (t_headers (x_resp t)) (s2b "content-length")) (headers_get_nocase_nozero (t_headers (x_resp t)) (s2b "transfer-encoding"))) ;; state_response_headers) e s
       = state_response_headers e (reframed x lf cl t1 lg s) /\ rsettles t t1 /\ goes_on (rp_content r) x lf t1 /\ t_prog (x_resp t1) <> PComplete).
  { intros b1 (lg & E) Dl. destruct (framing_eval e (set_s_logs lg s) t r) as (x & lf & cl & t1 & lg1 & E1 & E2 & E3 & E4); try assumption.
    exists x, lf, cl, t1, lg1. split; [|auto]. unfold bind at 1. rewrite E. unfold bind at 1, get_d at 1. change (d_state (s_dir SResp (set_s_logs lg s))) with (d_state (s_resp s)). rewrite D. cbn [pstate_eqb negb when].
    unfold bind at 1. rewrite E1. destruct s. reflexivity. }
  destruct (bytes_eqb (rq_method (m_req m)) (s2b "HEAD")) eqn:Hd.
  { apply bytes_eqb_eq in Hd. destruct Fr as [(_ & Ec) | (Hb & _)]; [|exfalso; apply Hb; now left]. now apply Done. }
  unfold in_range, eq_num. replace ((100 <=? rp_status r) && (rp_status r <=? 199)) with false by (symmetry; lia). cbn [orb].
  pose proof (no_line_get _ _ "transfer-encoding" Gl V) as Nte. pose proof (no_line_get _ _ "content-length" Gl V) as Ncl.
  destruct ((rp_status r =? 204) || (rp_status r =? 304)) eqn:St.
  - destruct Fr as [(Hb & Ec) | (Hb & Dl & _)].
    + destruct Hb as [Hm | (_ & H1 & H2)]; [rewrite Hm in Hd; discriminate|]. apply Ncl in H1. apply Nte in H2. rewrite H1, H2 in *. cbn [is_some negb andb]. now apply Done.
    + replace (_ && _) with false; [apply More; [apply log_eval|exact Dl]|]. symmetry. apply Bool.not_true_is_false. intro Z. apply Hb. right. split; [lia|].
      destruct (headers_get_nocase_nozero _ (s2b "transfer-encoding")); [discriminate|]. destruct (headers_get_nocase_nozero _ (s2b "content-length")); [discriminate|]. split; [now apply Ncl|now apply Nte].
  - destruct Fr as [(Hb & Ec) | (Hb & Dl & _)].
    + destruct Hb as [Hm | (H1 & _)]; [rewrite Hm in Hd; discriminate|lia].
    + apply More; [|exact Dl]. exists (s_logs s). now destruct s.
Qed.
Lemma no_expect ls hs : Forall good_hline ls -> map view hs = merged_table (map kv_of ls) -> no_line "expect" ls -> headers_get_nocase hs (s2b "expect") = None.
Proof.
  intros G V H. apply header_lookup_exact_first_match. pose proof (table_token _ _ G V) as Tk. apply Forall_forall. intros h Hh (n & Tr & Nm). rewrite Forall_forall in Tk. specialize (Tk h Hh).
  assert (n = hd_name h).
  { destruct (token_tight _ Tk) as [T1 T2]. destruct Tr as (a & b & E & Ha & Hb & _). destruct a as [|x a]; [|exfalso; inversion_clear Ha as [|? ? Hx _]; apply (T1 x _ E Hx)].
    destruct b as [|x b] using rev_ind; [cbn in E; rewrite app_nil_r in E; now symmetry|]. exfalso. apply Forall_app in Hb as [_ Hb]. inversion_clear Hb. apply (T2 x (n ++ b)); [|assumption]. cbn in E. now rewrite E, app_assoc. }
  subst n. apply (in_map view) in Hh. rewrite V in Hh. apply in_map_iff in Hh as (x & E & Hx). apply leaders_in in Hx. apply in_map_iff in Hx as (l & <- & Hl).
  unfold entry, view in E. injection E as E _ _. rewrite <- E in Nm. unfold no_line in H. rewrite Forall_forall in H. now apply (H l Hl).
Qed.
Lemma determine_eval e s t m r : tx_get (s_pidx s) (s_txs s) = Some t -> good_message m -> good_response m r -> d_state (s_resp s) = StBodyDetermine -> asked m t ->
  x_statusn t = RnValid (rp_status r) ->
  map view (t_headers (x_resp t)) = merged_table (map kv_of (rp_lines r)) -> t_proton (x_resp t) = ProtoV1_1 -> t_prog (x_resp t) = PHeaders ->
  exists x lf cl t1 lg, response_body_determine e s = state_response_headers e (reframed x lf cl t1 lg s) /\ rsettles t t1 /\ goes_on (rp_content r) x lf t1 /\ t_prog (x_resp t1) <> PComplete.
Proof.
  intros T Gm G D A Sn V Pn Pg. pose proof (ho_number _ _ A) as Mn. unfold response_body_determine. unfold bind at 1. rewrite (need_tx_get SResp _ _ t) by exact T. rewrite Mn, Sn.
  assert (Nc : is_method (MKnown (rq_method (m_req m))) "CONNECT" = false).
  { cbn [is_method]. apply Bool.not_true_is_false. intro Z. apply bytes_eqb_eq in Z. destruct Gm as ((_ & Hc & _) & _). now apply Hc. }
  rewrite Nc. cbn [andb when]. unfold bind at 1, ret at 1. unfold bind at 1. rewrite (the_tx_get SResp _ _ t) by exact T. cbv zeta. unfold bind at 1, get_d at 1. rewrite Sn.
  assert (S2 : 200 <= rp_status r) by apply G. unfold eq_num at 1 2. replace (rp_status r =? 101) with false by (symmetry; lia). replace (rp_status r =? 100) with false by (symmetry; lia). cbn [andb].
  unfold bind at 1.
  assert (W : forall b, when (in_range (RnValid (rp_status r)) 400 499 && b) (match headers_get_nocase (t_headers (x_req t)) (s2b "expect") with
            | Some h => when (bytes_eqb (hd_value h) (s2b "100-continue")) (set_state SReq StFinalize)
            | None => ret tt
            end) e s = (ROk tt, s)).
  { intro b. unfold in_range. destruct ((400 <=? rp_status r) && (rp_status r <=? 499)) eqn:R4; [|reflexivity]. cbn [andb]. destruct b; [|reflexivity]. cbn [when].
    rewrite (no_expect (rq_lines (m_req m) ++ trailer_of (m_content m))).
    - reflexivity.
    - apply Forall_app. destruct Gm as ((_ & _ & _ & _ & H1) & _ & H2 & _). split; [exact H1|]. destruct (m_content m); cbn [trailer_of]; [constructor|apply H2].
    - apply A.
    - apply G. lia. }
  rewrite <- Bool.andb_assoc. rewrite W. now apply (presence_eval e s t m r).
Qed.
(** * The transaction of a response *)
(** [ls] are the lines seen, [n] bytes of the body and [k] of the coded body were seen. *)
Record rready (m : message) (r : response) (ls : list hline) (n k : N) (t : tx) : Prop := {
  ry_asked : asked m t; ry_status : x_status t = Some (rp_code r); ry_number : x_statusn t = RnValid (rp_status r); ry_reason : x_msg t = Some (rp_reason r);
  ry_protocol : t_proton (x_resp t) = ProtoV1_1; ry_table : merged (map kv_of ls) (x_resp t); ry_hpc : t_hpc (x_resp t) = false;
  ry_elen : t_elen (x_resp t) = n; ry_mlen : t_mlen (x_resp t) = k; ry_cep : t_cep (x_resp t) = CeNone; ry_prog : t_prog (x_resp t) <> PComplete }.
Lemma merged_rmore ls1 ls2 t : merged (map kv_of ls1) (x_resp t) -> Forall good_hline ls1 -> Forall good_hline ls2 -> merged (map kv_of (ls1 ++ ls2)) (x_resp (add_headers SResp (map ph_of ls2) t)).
Proof.
  revert ls1 t. induction ls2 as [|l ls2 IH]; intros ls1 t M G1 G2; [rewrite app_nil_r; exact M|]. inversion_clear G2 as [|? ? Gl Gs]. cbn [map add_headers fold_left].
  replace (ls1 ++ l :: ls2) with ((ls1 ++ [l]) ++ ls2) by (rewrite <- app_assoc; reflexivity). apply IH; [|apply Forall_app; split; [exact G1|now constructor]|exact Gs].
  rewrite map_app. cbn [map]. change (x_resp (fst (add_header SResp (ph_of l) t))) with (x_dir SResp (fst (add_header SResp (ph_of l) t))). rewrite add_header_dir.
  refine (merged_step SResp (map kv_of ls1) (mk_header (hl_name l) (hl_value l) _) (x_resp t) M _ _).
  - apply Forall_forall. intros x Hx. apply in_map_iff in Hx as (z & <- & Hz). rewrite Forall_forall in G1. apply token_tight. apply (G1 z Hz).
  - cbn [hd_flags]; apply mask_clear; [apply header_flags_mask|reflexivity].
Qed.
Lemma rready_more m r ls ls2 n k t : Forall good_hline ls -> Forall good_hline ls2 -> rready m r ls n k t -> rready m r (ls ++ ls2) n k (add_headers SResp (map ph_of ls2) t).
Proof.
  intros G1 G2 [R1 R2 R3 R4 R5 R6 R7 R8 R9 R10 R11]. destruct (add_headers_rgains (map ph_of ls2) t) as ((rr & h & E) & S & A2 & A3 & A4).
  constructor; try (rewrite ?A2, ?A3, ?A4; assumption); try (rewrite E; assumption).
  - now apply (asked_same _ _ _ R1).
  - now apply merged_rmore.
Qed.
Lemma rready_lined m r t t0 : asked m t0 -> x_resp t0 = x_resp tx_new -> t = lined r (started t0) -> rready m r [] 0 0 t.
Proof.
  intros A N ->. constructor; try reflexivity.
  - apply (asked_same _ _ _ A). repeat split; reflexivity.
  - cbn. rewrite N. now split.
  - cbn. now rewrite N.
  - cbn. now rewrite N.
  - cbn. now rewrite N.
  - cbn. now rewrite N.
  - discriminate.
Qed.
Lemma with_decomp_resp cfg t : lacks (t_headers (x_resp t)) (s2b "content-encoding") -> x_resp (with_decompressors SResp cfg t) = set_t_cep CeNone (set_t_ce CeNone (x_resp t)).
Proof. intro H. unfold with_decompressors, initialize_decompressors. cbn [x_dir]. rewrite get_lacks by exact H. destruct (decompression_enabled _ _); reflexivity. Qed.
Lemma rready_settled m r t t1 cfg n k : good_response m r -> rready m r (rp_lines r) n k t -> rsettles t t1 -> t_prog (x_resp t1) <> PComplete -> rready m r (rp_lines r) n k (with_decompressors SResp cfg t1).
Proof.
  intros G [R1 R2 R3 R4 R5 R6 R7 R8 R9 R10 R11] ((p & c & l & ct & E) & S & A2 & A3 & A4) P.
  assert (Ed : x_resp (with_decompressors SResp cfg t1) = set_t_cep CeNone (set_t_ce CeNone (x_resp t1))).
  { apply with_decomp_resp. rewrite E. apply (table_lacks (rp_lines r) (t_headers (x_resp t))); [apply G|apply R6|apply G]. }
  constructor; rewrite ?Ed; try (cbn; rewrite E; assumption); try (cbn; congruence).
  - apply (asked_same _ _ _ R1). eapply same_request_trans; [exact S|]. repeat split; reflexivity.
Qed.
Lemma rheaders_done e s t a k cb : yes e -> tx_get (s_pidx s) (s_txs s) = Some t ->
  s_input s = mk_pdata (Some a) None k cb -> k <= blen a -> cb <= k -> d_recv (s_resp s) = Some HResponseHeaderData ->
  exists l, state_response_headers e s = (ROk tt, set_s_logs l (set_s_trace
    ((mk_ev HResponseHeaders (s_pidx s) PlNone, SOk) :: (mk_ev HResponseHeaderData (s_pidx s) (PlData (between a cb k)), SOk) :: s_trace s)
    (set_s_input (mk_pdata (Some a) None k k) (set_s_txs (tx_set (s_pidx s) (with_decompressors SResp (e_cfg e) t) (s_txs s))
      (set_s_resp (set_d_recv None (s_resp s)) s))))).
Proof.
  intros Y T I Lk Lc Rc. unfold state_response_headers. unfold bind at 1, receiver_finalize_clear. unfold bind at 1, get_d at 1. cbn [s_dir]. rewrite Rc.
  unfold receiver_send_data. unfold bind at 1, try at 1. unfold bind at 1, input at 1. rewrite I. unfold pd_callback_data. cbn [pd_data pd_pos pd_cb].
  destruct (k <=? blen a) eqn:E1; [|lia]. destruct (cb <=? k) eqn:E2; [|lia]. cbn [andb]. fold (between a cb k).
  destruct s as [rq rs oe cc ci ri pi txs cf si so tr lg0 inp]. destruct rs as [d1 d2 d3 d4 d5 d6 d7 d8 d9 d10]. cbn in T, I, Rc. subst d10 inp. ev.
  rewrite (need_tx_get SResp _ _ t) by exact T. ev. rewrite (data_hook_yes e _ _ _ _ Y). unfold push. ev.
  rewrite (tx_hook_yes e _ _ _ t Y) by exact T. unfold push, init_decompressors. ev. rewrite (need_tx_get SResp _ _ t) by exact T.
  match goal with |- context [mod_tx_log SResp ?f e ?z] => destruct (mod_tx_log_get SResp f e z t T) as [l2 El]; set (ff := f) in El |- *; rewrite El; clear El end.
  exists l2. ev. unfold ff, with_decompressors. destruct (initialize_decompressors _ _ _) as [dd lg3]. reflexivity.
Qed.
Lemma rs_determine e C s a m r tr q tail k cb i t : yes e -> good_message m -> good_response m r ->
  rmile StBodyDetermine (Some HResponseHeaderData) [] None i t tr C s -> rest_of a tail k cb s -> cb + blen q = k -> skipn (N.to_nat cb) a = q ++ tail ->
  rready m r (rp_lines r) 0 0 t -> t_prog (x_resp t) = PHeaders ->
  exists s' t' x, step SResp e s = (ROk None, s') /\ rest_of a tail k k s' /\ rready m r (rp_lines r) 0 0 t' /\ goes_on (rp_content r) x (d_left (s_resp s')) t' /\
    rmile x None [] None i t' ((mk_ev HResponseHeaders i PlNone, SOk) :: (mk_ev HResponseHeaderData i (PlData q), SOk) :: tr) C s'.
Proof.
  intros Y Gm G [M1 M2 M3 M4 M5 M6 M7 M8 M9 M10 M11 M12] R Ek Sk Ry Pg. rewrite <- M7 in M8.
  destruct (determine_eval e s t m r) as (x & lf & cl & t1 & lg & E & S & Go & P); try assumption; try apply Ry.
  destruct R as (I & L1 & L2).
  destruct (rheaders_done e (reframed x lf cl t1 lg s) t1 a k cb) as [l H]; try assumption; [apply (reframed_tx _ _ _ _ _ _ _ M8)|lia|].
  rewrite <- E in H. subst k. rewrite (between_app a cb q tail Sk) in H.
  assert (Hx : x <> StHeaders) by (intros ->; destruct (rp_content r) as [[|? ?]| ]; cbn in Go; intuition discriminate).
  assert (Hs : handle_state SResp e s = response_body_determine e s) by (unfold handle_state, by_side, handle_response_state; unfold bind at 1, get_d at 1; cbn [s_dir]; now rewrite M1).
  rewrite <- Hs in H. apply (step_next SResp) in H; [|rewrite I; reflexivity|exact (rlive_not_tunnel _ M3)|exact Hx].
  eexists _, (with_decompressors SResp (e_cfg e) t1), x. split; [exact H|]. split; [split; [reflexivity|split; assumption]|]. split; [eapply rready_settled; eassumption|].
  assert (Go2 : goes_on (rp_content r) x lf (with_decompressors SResp (e_cfg e) t1)).
  { destruct (rp_content r) as [[|? ?]| ]; try exact Go. destruct Go as (G1 & G2 & G3). split; [exact G1|]. split; [exact G2|].
    rewrite with_decomp_resp; [exact G3|]. destruct S as ((p & c & ll & ct & Es) & _). rewrite Es. apply (table_lacks (rp_lines r) (t_headers (x_resp t))); [apply G|apply Ry|apply G]. }
  split; [exact Go2|]. constructor; cbn; try assumption; try reflexivity.
  - rewrite tx_set_set, M7. rewrite M7 in M8. apply (tx_get_set_eq _ _ _ _ M8).
  - now rewrite M7, M9.
  - intros j Hj. rewrite tx_set_set, tx_get_set_other by congruence. now apply M11.
  - rewrite tx_set_set. now apply stocked_set.
Qed.
