(** The end of a connection: responses that go on until it is closed. *)
From Verif Require Import Base Spec SpecTx SpecMsg SpecResp SpecEnd ModelUtil ModelBstr ModelParsers ModelHeaders ModelState ModelTx ModelConn SpecConn ProofsBase ProofsBytes ProofsParsers ProofsHeaders ProofsTx ProofsConn ProofsCore ProofsLoop ProofsHist ProofsEval ProofsBody ProofsHead ProofsFrame ProofsStream ProofsChunk ProofsMsg ProofsRStream ProofsRHead ProofsRBody ProofsRMsg.

(** * What the head of such a response tells *)
Lemma span_front f : forall l : bytes, exists w, l = fst (span f l) ++ w.
Proof. induction l as [|c l [w IH]]; [now exists []|]. cbn [span]. destruct (f c); [|now exists (c :: l)]. destruct (span f l) as [a b]. cbn [fst] in *. exists w. cbn [app]. congruence. Qed.
Lemma content_type_front v : exists p w, response_content_type v = lowers p /\ v = p ++ w.
Proof.
  unfold response_content_type, take_till_s.
  destruct (span (fun c => negb ((c =? 59) || is_space c)) v) as [a b] eqn:E.
  pose proof (span_front (fun c => negb ((c =? 59) || is_space c)) v) as [w H]. rewrite E in H. cbn [fst] in H.
  unfold take_while_s. rewrite E. destruct b as [|x b]; [exists v, []; now rewrite app_nil_r|exists a, w; auto].
Qed.
Lemma lowers_twice l : lowers (lowers l) = lowers l.
Proof. unfold lowers. rewrite map_map. apply map_ext. intro c. unfold lower. destruct ((65 <=? c) && (c <=? 90)) eqn:E; [|now rewrite E]. destruct ((65 <=? c + 32) && (c + 32 <=? 90)) eqn:F; lia. Qed.
Lemma not_multipart v : ~ contains v "multipart/byteranges" -> is_some (index_of_nocase (response_content_type v) (s2b "multipart/byteranges")) = false.
Proof.
  intro H. destruct (is_some _) eqn:E; [|reflexivity]. exfalso. apply H. destruct (search_text (response_content_type v) (s2b "multipart/byteranges")) as [A _].
  destruct (index_of_nocase _ _) as [i|]; [|discriminate]. destruct (proj1 (A i) eq_refl) as (_ & (a & x & b & E1 & _ & E2) & _).
  destruct (content_type_front v) as (p & w & Ep & Ev). rewrite Ep in E1. unfold lowers in E1. apply map_eq_app in E1 as (p1 & p2 & -> & _ & E1). apply map_eq_app in E1 as (p3 & p4 & -> & E3 & _).
  exists p1, p3, (p4 ++ w). split; [rewrite Ev, <- !app_assoc; reflexivity|]. apply name_eq_lowers. apply name_eq_lowers in E2. rewrite <- E2, <- E3. fold (lowers p3). now rewrite lowers_twice.
Qed.
Lemma framing_open e s t r : tx_get (s_pidx s) (s_txs s) = Some t -> Forall good_hline (rp_lines r) -> endless (rp_lines r) ->
  map view (t_headers (x_resp t)) = merged_table (map kv_of (rp_lines r)) -> t_proton (x_resp t) = ProtoV1_1 ->
  exists cl t1, response_body_framing (headers_get_nocase_nozero (t_headers (x_resp t)) (s2b "content-length")) (headers_get_nocase_nozero (t_headers (x_resp t)) (s2b "transfer-encoding")) e s =
    (ROk tt, reframed StStreamClose None cl t1 (s_logs s) s) /\ rsettles t t1 /\ t_prog (x_resp t1) = PBody /\ t_coding (x_resp t1) = CdIdentity.
Proof.
  intros T Gl (Ncl & Nte & Nct) V Pn. unfold response_body_framing. unfold bind at 1. rewrite (the_tx_get SResp _ _ t) by exact T. cbv zeta.
  rewrite (get_lacks _ (s2b "transfer-encoding")) by (eapply table_lacks; eassumption).
  rewrite (get_lacks _ (s2b "content-length")) by (eapply table_lacks; eassumption).
  set (ct := match headers_get_nocase_nozero (t_headers (x_resp t)) (s2b "content-type") with Some h => _ | None => None end).
  assert (Mu : match ct with Some v => is_some (index_of_nocase v (s2b "multipart/byteranges")) | None => false end = false).
  { unfold ct. destruct Nct as [Nct | (l & Ol & Nm)].
    - rewrite (get_lacks _ (s2b "content-type")) by (eapply table_lacks; eassumption). reflexivity.
    - destruct (table_only _ _ Gl V _ _ Ol) as (h & Hh & Ev). rewrite (get_the_header _ _ _ Hh), Ev. now apply not_multipart. }
  rewrite Mu. clearbody ct. clear Mu.
  set (t0 := match ct with Some _ => upd_dir SResp (set_t_ctype ct) t | None => t end).
  assert (S0 : rsettles t t0) by (unfold t0; destruct ct; rsettled t).
  assert (W : when (is_some ct) (mod_txd SResp (set_t_ctype ct)) e s = (ROk tt, set_s_txs (tx_set (s_pidx s) t0 (s_txs s)) s)).
  { unfold t0. destruct ct; cbn [is_some when].
    - unfold mod_txd. rewrite (mod_tx_get SResp _ _ _ t) by exact T. reflexivity.
    - rewrite tx_set_same by exact T. now destruct s. }
  unfold bind at 1. rewrite W. clear W. clearbody t0.
  assert (T0 : tx_get (s_pidx s) (tx_set (s_pidx s) t0 (s_txs s)) = Some t0) by apply (tx_get_set_eq _ _ _ _ T).
  destruct s as [rq rs oe cc ci ri pi txs cf si so tr lg inp]. destruct rs as [d1 d2 d3 d4 d5 d6 d7 d8 d9 d10]. cbn in T, T0. ev.
  unfold mod_txd at 1. rewrite (mod_tx_get SResp _ _ _ t0) by exact T0. ev. rewrite tx_set_set.
  eexists d5, _. split; [reflexivity|]. split; [apply (rsettles_trans _ _ _ S0); rsettled t0|]. split; reflexivity.
Qed.
Lemma presence_open e s t m r : tx_get (s_pidx s) (s_txs s) = Some t -> open_response m r -> d_state (s_resp s) = StBodyDetermine ->
  x_methodn t = MKnown (rq_method (m_req m)) -> x_statusn t = RnValid (rp_status r) ->
  map view (t_headers (x_resp t)) = merged_table (map kv_of (rp_lines r)) -> t_proton (x_resp t) = ProtoV1_1 ->
  exists cl t1 lg, response_body_presence (headers_get_nocase_nozero (t_headers (x_resp t)) (s2b "content-length")) (headers_get_nocase_nozero (t_headers (x_resp t)) (s2b "transfer-encoding")) e s =
    state_response_headers e (reframed StStreamClose None cl t1 lg s) /\ rsettles t t1 /\ t_prog (x_resp t1) = PBody /\ t_coding (x_resp t1) = CdIdentity.
Proof.
  intros T G D Mn Sn V Pn. destruct G as (_ & _ & S2 & _ & _ & Gl & _ & _ & Nb & En & _).
  unfold response_body_presence. unfold bind at 1. rewrite (the_tx_get SResp _ _ t) by exact T. rewrite Mn, Sn. cbn [is_method].
  destruct (bytes_eqb (rq_method (m_req m)) (s2b "HEAD")) eqn:Hd; [exfalso; apply Nb; left; now apply bytes_eqb_eq|].
  unfold in_range, eq_num. replace ((100 <=? rp_status r) && (rp_status r <=? 199)) with false by (symmetry; lia). cbn [orb].
  replace ((rp_status r =? 204) || (rp_status r =? 304)) with false.
  2:{ symmetry. apply Bool.not_true_is_false. intro Z. apply Nb. right. destruct En as (E1 & E2 & _). split; [lia|auto]. }
  destruct (framing_open e s t r) as (cl & t1 & E1 & E2 & E3); try assumption.
  exists cl, t1, (s_logs s). split; [|auto]. unfold bind at 1, ret at 1. unfold bind at 1, get_d at 1. cbn [s_dir]. rewrite D. cbn [pstate_eqb negb when].
  unfold bind at 1. rewrite E1. reflexivity.
Qed.
Lemma determine_open e s t m r : tx_get (s_pidx s) (s_txs s) = Some t -> good_message m -> open_response m r -> d_state (s_resp s) = StBodyDetermine -> asked m t ->
  x_statusn t = RnValid (rp_status r) ->
  map view (t_headers (x_resp t)) = merged_table (map kv_of (rp_lines r)) -> t_proton (x_resp t) = ProtoV1_1 ->
  exists cl t1 lg, response_body_determine e s = state_response_headers e (reframed StStreamClose None cl t1 lg s) /\ rsettles t t1 /\ t_prog (x_resp t1) = PBody /\ t_coding (x_resp t1) = CdIdentity.
Proof.
  intros T Gm G D A Sn V Pn. pose proof (ho_number _ _ A) as Mn. unfold response_body_determine. unfold bind at 1. rewrite (need_tx_get SResp _ _ t) by exact T. rewrite Mn, Sn.
  assert (Nc : is_method (MKnown (rq_method (m_req m))) "CONNECT" = false).
  { cbn [is_method]. apply Bool.not_true_is_false. intro Z. apply bytes_eqb_eq in Z. destruct Gm as ((_ & Hc & _) & _). now apply Hc. }
  rewrite Nc. cbn [andb when]. unfold bind at 1, ret at 1. unfold bind at 1. rewrite (the_tx_get SResp _ _ t) by exact T. cbv zeta. unfold bind at 1, get_d at 1. rewrite Sn.
  assert (S2 : 200 <= rp_status r) by apply G. unfold eq_num at 1 2. replace (rp_status r =? 101) with false by (symmetry; lia). replace (rp_status r =? 100) with false by (symmetry; lia). cbn [andb].
  unfold bind at 1.
  assert (W : forall b, when (in_range (RnValid (rp_status r)) 400 499 && b) (match headers_get_nocase (t_headers (x_req t)) (s2b "expect") with
            | Some h => when (bytes_eqb (hd_value h) (s2b "100-continue")) (set_state SReq StFinalize)
            | None => ret tt
            end) e s = (ROk tt, s)).
  { intro b. unfold in_range. destruct ((400 <=? rp_status r) && (rp_status r <=? 499)) eqn:R4; [|reflexivity]. cbn [andb]. destruct b; [|reflexivity]. cbn [when].
    rewrite (no_expect (rq_lines (m_req m) ++ trailer_of (m_content m))).
    - reflexivity.
    - apply Forall_app. destruct Gm as ((_ & _ & _ & _ & H1) & _ & H2 & _). split; [exact H1|]. destruct (m_content m); cbn [trailer_of]; [constructor|apply H2].
    - apply A.
    - apply G. lia. }
  rewrite <- Bool.andb_assoc. rewrite W. now apply (presence_open e s t m r).
Qed.
Lemma rready_opened m r t t1 cfg n k : open_response m r -> rready m r (rp_lines r) n k t -> rsettles t t1 -> t_prog (x_resp t1) <> PComplete -> rready m r (rp_lines r) n k (with_decompressors SResp cfg t1).
Proof.
  intros G [R1 R2 R3 R4 R5 R6 R7 R8 R9 R10 R11] ((p & c & l & ct & E) & S & A2 & A3 & A4) P.
  assert (Ed : x_resp (with_decompressors SResp cfg t1) = set_t_cep CeNone (set_t_ce CeNone (x_resp t1))).
  { apply with_decomp_resp. rewrite E. apply (table_lacks (rp_lines r) (t_headers (x_resp t))); [apply G|apply R6|apply G]. }
  constructor; rewrite ?Ed; try (cbn; rewrite E; assumption); try (cbn; congruence).
  - apply (asked_same _ _ _ R1). eapply same_request_trans; [exact S|]. repeat split; reflexivity.
Qed.
Lemma rs_determine_open e C s a m r tr q tail k cb i t : yes e -> good_message m -> open_response m r ->
  rmile StBodyDetermine (Some HResponseHeaderData) [] None i t tr C s -> rest_of a tail k cb s -> cb + blen q = k -> skipn (N.to_nat cb) a = q ++ tail ->
  rready m r (rp_lines r) 0 0 t ->
  exists s' t', step SResp e s = (ROk None, s') /\ rest_of a tail k k s' /\ rready m r (rp_lines r) 0 0 t' /\
    rmile StStreamClose None [] None i t' ((mk_ev HResponseHeaders i PlNone, SOk) :: (mk_ev HResponseHeaderData i (PlData q), SOk) :: tr) C s'.
Proof.
  intros Y Gm G [M1 M2 M3 M4 M5 M6 M7 M8 M9 M10 M11 M12] R Ek Sk Ry. rewrite <- M7 in M8.
  destruct (determine_open e s t m r) as (cl & t1 & lg & E & S & P & Cd); try assumption; try apply Ry.
  destruct R as (I & L1 & L2).
  destruct (rheaders_done e (reframed StStreamClose None cl t1 lg s) t1 a k cb) as [l H]; try assumption; [apply (reframed_tx _ _ _ _ _ _ _ M8)|lia|].
  rewrite <- E in H. subst k. rewrite (between_app a cb q tail Sk) in H.
  assert (Hs : handle_state SResp e s = response_body_determine e s) by (unfold handle_state, by_side, handle_response_state; unfold bind at 1, get_d at 1; cbn [s_dir]; now rewrite M1).
  rewrite <- Hs in H. apply (step_next SResp) in H; [|rewrite I; reflexivity|exact (rlive_not_tunnel _ M3)|discriminate].
  eexists _, (with_decompressors SResp (e_cfg e) t1). split; [exact H|]. split; [split; [reflexivity|split; assumption]|]. split; [eapply rready_opened; try eassumption; rewrite P; discriminate|].
  constructor; cbn; try assumption; try reflexivity.
  - rewrite tx_set_set, M7. rewrite M7 in M8. apply (tx_get_set_eq _ _ _ _ M8).
  - now rewrite M7, M9.
  - intros j Hj. rewrite tx_set_set, tx_get_set_other by congruence. now apply M11.
  - rewrite tx_set_set. now apply stocked_set.
Qed.

(** * The body *)
Definition ate_open (k : N) (c : bytes) (t : tx) (s : st) : st :=
  let s1 := set_s_txs (tx_set (s_pidx s) (grow SResp (blen c) t) (s_txs s)) s in
  let s2 := body_hooks SResp (s_pidx s) (PlData c) s1 in
  let s3 := set_s_input (set_pd_pos (k + blen c) (s_input s)) s2 in
  set_s_resp (set_d_consumed (k + blen c) (s_resp s)) s3.
Lemma ate_open_mile C k c t tr i s : rmile StStreamClose None [] None i t tr C s ->
  rmile StStreamClose None [] None i (grow SResp (blen c) t) (rpiece i (PlData c) ++ tr) C (ate_open k c t s).
Proof.
  intros [M1 M2 M3 M4 M5 M6 M7 M8 M9 M10 M11 M12]. unfold ate_open, body_hooks, push. rewrite M7. constructor; cbn; try assumption; try reflexivity.
  - apply (tx_get_set_eq _ _ _ _ M8).
  - now rewrite M9.
  - intros j Hj. rewrite tx_get_set_other by congruence. now apply M11.
  - now apply stocked_set.
Qed.
Lemma rs_open_wait e C s a tr k cb i t : rmile StStreamClose None [] None i t tr C s -> rest_of a [] k cb s ->
  exists s', rruns e s s' /\ rmile StStreamClose None [] None i t tr C s'.
Proof.
  intros M R. assert (H : handle_state SResp e s = (RErr SData, s)).
  { unfold handle_state, by_side, handle_response_state. unfold bind at 1, get_d at 1. cbn [s_dir]. rewrite (rm_state _ _ _ _ _ _ _ _ _ M). unfold response_body_identity_stream_close.
    unfold bind at 1, input at 1. rewrite (rest_no_gap _ _ _ _ _ R). unfold pd_is_empty. rewrite (rest_pd_len _ _ _ _ _ R). change (blen [] =? 0) with true. cbn [negb when].
    unfold bind at 1, ret at 1. unfold bind at 1, get_d at 1. cbn [s_dir]. rewrite (rlive_closed_eqb _ (rm_live _ _ _ _ _ _ _ _ _ M)). reflexivity. }
  eapply rpause_plain in H; [|left; reflexivity|exact (rest_no_gap _ _ _ _ _ R)|exact M]. destruct H as (s' & H1 & H2 & _). exists s'. auto.
Qed.
Lemma rs_open_part e C s a tr c k cb i t : yes e -> rmile StStreamClose None [] None i t tr C s -> t_cep (x_resp t) = CeNone -> rest_of a c k cb s -> c <> [] ->
  exists s', rruns e s s' /\ rmile StStreamClose None [] None i (grow SResp (blen c) t) (rpiece i (PlData c) ++ tr) C s'.
Proof.
  intros Y M Ce R Nc. pose proof (ate_open_mile C k c t tr i s M) as M'.
  assert (H : handle_state SResp e s = (RErr SData, ate_open k c t s)).
  { pose proof (rm_tx _ _ _ _ _ _ _ _ _ M) as M8. rewrite <- (rm_idx _ _ _ _ _ _ _ _ _ M) in M8.
    pose proof (rm_live _ _ _ _ _ _ _ _ _ M) as Lv. pose proof (rm_state _ _ _ _ _ _ _ _ _ M) as D1. clear M M'.
    unfold handle_state, by_side, handle_response_state. unfold bind at 1, get_d at 1. cbn [s_dir]. rewrite D1. unfold response_body_identity_stream_close.
    unfold bind at 1, input at 1. rewrite (rest_no_gap _ _ _ _ _ R). unfold pd_is_empty. rewrite (rest_pd_len _ _ _ _ _ R). destruct (blen c =? 0) eqn:E0; [destruct c; [congruence|unfold blen in E0; cbn in E0; lia]|]. cbn [negb when].
    assert (Eu : pd_unconsumed (s_input s) = Some c) by (destruct R as (I & Lk & Es); rewrite I; unfold pd_unconsumed; cbn [pd_data pd_pos]; destruct (k <=? blen a) eqn:E1; [congruence|lia]). rewrite Eu.
    unfold bind at 1. unfold bind at 1. rewrite (body_data_plain SResp e s t (Some c) Y) by assumption.
    cbv zeta. destruct c as [|x c]; [congruence|]. set (c0 := x :: c) in *. cbv iota beta.
    unfold ate_open. destruct s as [rq rs oe cc ci ri pi txs cf si so tr0 lg inp]. destruct rs as [d1 d2 d3 d4 d5 d6 d7 d8 d9 d10]. destruct R as (I & _ & _). cbn in I, D1, M8, Lv. subst.
    unfold body_hooks, push. ev. replace (match d1 with SsClosed => true | _ => false end) with false by (destruct Lv as [-> | ->]; reflexivity). reflexivity. }
  eapply rpause_plain in H; [|left; reflexivity|exact (rest_no_gap _ _ _ _ _ R)|exact M']. destruct H as (s' & H1 & H2 & _). exists s'. auto.
Qed.

(** * From call to call *)
Lemma open_status m r : open_response m r -> good_status r.
Proof. intros (H1 & H2 & H3 & H4 & H5 & _). split; [tauto|]. split; [tauto|]. split; [lia|]. split; assumption. Qed.
Section Open.
Variables (e : env) (m : message) (r : response) (body : bytes) (i : N) (C : ctx) (tr : list (event * status)) (t0 : tx).
Hypothesis Y : yes e.
Hypothesis Gm : good_message m.
Hypothesis Gr : open_response m r.
Hypothesis Ec : rp_content r = Plain body.
Hypothesis Lb : blen body < 2 ^ 64.
Hypothesis Sm : smooth body.
Hypothesis Lim : blen (head_text r) <= c_field_limit (e_cfg e).
Hypothesis Ct : cx_table C i = Some t0.
Hypothesis Ho : holds m t0.

(** The bytes [S] of the response are still to come. *)
Inductive lpaused : bytes -> st -> Prop :=
| lp_idle s : rresting [] i tr C s -> lpaused (response_text r) s
| lp_line p l s : p ++ l = line_body r -> rmile StLine None p None i (started t0) (tr_of [ev_rstart i] tr) C s -> lpaused ((l ++ [13; 10]) ++ rafter_line r) s
| lp_headers ls1 ls2 p q t hs s : rp_lines r = ls1 ++ ls2 -> p ++ q = block_text ls2 ++ [13; 10] -> q <> [] -> ls2 <> [] -> concat hs = block_text ls1 ++ p ->
    rready m r ls1 0 0 t -> t_prog (x_resp t) = PHeaders ->
    rmile StHeaders (Some HResponseHeaderData) [] (Some p) i t (tr_of (rline_events i ++ map (ev_rheader i) hs) tr) C s -> lpaused (q ++ body) s
| lp_body b1 b2 t es s : body = b1 ++ b2 -> rready m r (rp_lines r) (blen b1) (blen b1) t -> rbody_events i r b1 es ->
    rmile StStreamClose None [] None i t (tr_of es tr) C s -> lpaused b2 s.
Definition loutcome (S : bytes) (s : st) : Prop := exists s', rruns e s s' /\ lpaused S s'.
Definition lclean (S : bytes) : Prop := S <> [10] ++ rafter_line r.
Lemma loutcome_next S s s1 : step SResp e s = (ROk None, s1) -> loutcome S s1 -> loutcome S s.
Proof using. intros H (s' & R & P). exists s'. split; [exact (rruns_next _ _ _ _ H R)|exact P]. Qed.
Lemma lcontent : content_text (rp_content r) = body.
Proof using Ec. rewrite Ec. unfold content_text. cbn. now rewrite app_nil_r. Qed.
Lemma lfrom_body S s a rest k cb t b1 es : rready m r (rp_lines r) (blen b1) (blen b1) t -> rbody_events i r b1 es ->
  rmile StStreamClose None [] None i t (tr_of es tr) C s -> rest_of a rest k cb s -> body = b1 ++ rest ++ S -> loutcome S s.
Proof using Y Lb Lim.
  intros Rd Be M R E. destruct rest as [|x rest].
  - destruct (rs_open_wait e C s a _ k cb i t M R) as (s1 & H1 & M1). exists s1. split; [exact H1|]. apply (lp_body b1 S t es); assumption.
  - destruct (rs_open_part e C s a _ (x :: rest) k cb i t Y M (ry_cep _ _ _ _ _ _ Rd) R ltac:(discriminate)) as (s1 & H1 & M1). exists s1. split; [exact H1|].
    assert (Ln : blen b1 + blen (x :: rest) < 2 ^ 64) by (rewrite E in Lb; unfold blen in *; rewrite !app_length in Lb; lia).
    apply (lp_body (b1 ++ x :: rest) S (grow SResp (blen (x :: rest)) t) (es ++ reply_piece i (PlData (x :: rest)))).
    + now rewrite <- app_assoc.
    + replace (blen (b1 ++ x :: rest)) with (blen b1 + blen (x :: rest)) by (unfold blen; rewrite app_length; lia). now apply rready_grow.
    + destruct Be as (he & bs & Hh & Eb & Nb & ->). exists he, (bs ++ [x :: rest]). split; [exact Hh|]. split; [rewrite concat_app, Eb; cbn [concat]; now rewrite app_nil_r|]. split.
      * intro I. apply in_app_or in I as [I | [I | []]]; [now apply Nb|discriminate].
      * rewrite flat_map_app. cbn [flat_map]. now rewrite app_nil_r, app_assoc.
    + rewrite tr_of_app, <- tr_of_rpiece. exact M1.
Qed.
Lemma lfrom_headers S s a rest k t p q ls1 ls2 hs : rp_lines r = ls1 ++ ls2 ->
  opt_text p ++ q = block_text ls2 ++ [13; 10] -> q <> [] -> ls2 <> [] -> concat hs = block_text ls1 ++ opt_text p ->
  rready m r ls1 0 0 t -> t_prog (x_resp t) = PHeaders ->
  rmile StHeaders (Some HResponseHeaderData) [] p i t (tr_of (rline_events i ++ map (ev_rheader i) hs) tr) C s ->
  rest_of a rest k k s -> rest ++ S = q ++ body -> loutcome S s.
Proof using Y Gm Gr Lb Sm Lim Ec.
  intros El Eq Nq Hp Eh Rd Tp M R E. assert (Gl : Forall good_hline (rp_lines r)) by apply Gr. rewrite El in Gl. apply Forall_app in Gl as [Gl1 Gl].
  assert (Fin : forall tail, rest = q ++ tail -> body = tail ++ S -> loutcome S s).
  { intros tail -> Et. assert (Eb : ends_block ls2 tail).
    { left. split; [exact Hp|]. apply (after_smooth [] body tail S Sm). rewrite Et. now rewrite app_nil_r. }
    destruct (rs_headers e C s a ls2 _ p q tail k i t Gl Eb M (ry_hpc _ _ _ _ _ _ Rd) Tp R Nq Eq) as (s1 & H1 & R1 & Sk & M1). apply (loutcome_next _ _ _ H1).
    assert (Rd1 : rready m r (rp_lines r) 0 0 (add_headers SResp (map ph_of ls2) t)) by (rewrite El; now apply rready_more).
    destruct (rs_determine_open e C s1 a m r _ q tail (k + blen q) k i _ Y Gm Gr M1 R1 eq_refl Sk Rd1) as (s2 & t2 & H2 & R2 & Rd2 & M2). apply (loutcome_next _ _ _ H2).
    clear H1 H2 M M1 R R1 Sk Rd1 Rd Tp. set (es := (rline_events i ++ map (ev_rheader i) hs) ++ [ev_rheader i q; mk_ev HResponseHeaders i PlNone]).
    assert (M3 : rmile StStreamClose None [] None i t2 (tr_of es tr) C s2) by (unfold es; rewrite tr_of_app; exact M2).
    assert (He : rhead_events i r es).
    { exists (hs ++ [q]). split; [rewrite concat_app, Eh, El; cbn [concat]; rewrite app_nil_r, <- app_assoc, Eq; unfold block_text; now rewrite map_app, concat_app, <- app_assoc|].
      unfold es. rewrite map_app. cbn [map]. now rewrite <- !app_assoc. }
    assert (Be : rbody_events i r [] es) by (exists es, []; repeat split; [exact He|intros []|cbn; now rewrite app_nil_r]).
    apply (lfrom_body S s2 a tail _ _ t2 [] es Rd2 Be M3 R2). exact Et. }
  apply app_split in E as [(y & E1 & E2) | (y & E1 & E2)]; [|apply (Fin y); assumption].
  destruct y as [|y0 y]; [rewrite app_nil_r in E1; apply (Fin []); [now rewrite app_nil_r|symmetry; exact E2]|].
  rewrite E1, app_assoc in Eq. destruct (rhead_cut ls2 (opt_text p ++ rest) (y0 :: y) Gl Eq) as (l1 & l2 & q' & -> & E3 & E4 & E5 & E6); [discriminate|].
  apply Forall_app in Gl as [Gl2 _].
  destruct (rs_headers_part e C s a l1 _ p rest q' k i _ _ Y Gl2 M (ry_hpc _ _ _ _ _ _ Rd) R E3 E5) as (s1 & H1 & M1).
  { etransitivity; [|exact Lim]. unfold head_text. rewrite El. unfold block_text in *. rewrite !map_app, !concat_app, <- !app_assoc.
    rewrite <- E4. unfold blen. rewrite !app_length. lia. }
  exists s1. split; [exact H1|]. subst S.
  apply (lp_headers (ls1 ++ l1) l2 q' (y0 :: y) (add_headers SResp (map ph_of l1) t) (hs ++ [rest])); [now rewrite El, app_assoc|exact E4|discriminate| | | | |].
  - destruct E6 as [E6 | E6]; [exact E6|]. congruence.
  - rewrite concat_app, Eh. cbn [concat]. rewrite app_nil_r, <- app_assoc, E3. unfold block_text. now rewrite map_app, concat_app, <- app_assoc.
  - now apply rready_more.
  - destruct (add_headers_rgains (map ph_of l1) t) as ((rr & hh & Eg) & _). rewrite Eg. exact Tp.
  - rewrite (map_app (ev_rheader i)). cbn [map]. rewrite app_assoc, tr_of_app. exact M1.
Qed.
Lemma lfrom_line S s a rest k cb p l : lclean S -> p ++ l = line_body r -> rmile StLine None p None i (started t0) (tr_of [ev_rstart i] tr) C s ->
  rest_of a rest k cb s -> rest ++ S = (l ++ [13; 10]) ++ rafter_line r -> loutcome S s.
Proof using Y Gm Gr Lb Sm Lim Ec Ho.
  intros Cl El M R E. pose proof (open_status _ _ Gr) as Gs.
  assert (Lim1 : blen (status_line_text r) <= c_field_limit (e_cfg e)) by (etransitivity; [|exact Lim]; unfold head_text, blen; rewrite app_length; lia).
  assert (Fin : forall tail, rest = (l ++ [13; 10]) ++ tail -> rafter_line r = tail ++ S -> loutcome S s).
  { intros tail -> Et. destruct (rs_line e C s a r _ p l tail k cb i _ Y Gs M R El Lim1) as (s1 & H1 & R1 & M1). apply (loutcome_next _ _ _ H1).
    destruct Ho as [Ha Hr].
    eapply (lfrom_headers S s1 a tail _ (lined r (started t0)) None (block_text (rp_lines r) ++ [13; 10]) [] (rp_lines r) []); [reflexivity|reflexivity|destruct (block_text _); discriminate| |reflexivity| |reflexivity|exact M1|exact R1|].
    - apply Gr.
    - exact (rready_lined m r _ t0 Ha (reply_resp _ _ Hr) eq_refl).
    - rewrite <- Et. unfold rafter_line. rewrite lcontent. now rewrite <- !app_assoc. }
  apply app_split in E as [(y & E1 & E2) | (y & E1 & E2)]; [|apply (Fin y); assumption].
  destruct y as [|y0 y]; [rewrite app_nil_r in E1; apply (Fin []); [now rewrite app_nil_r|symmetry; exact E2]|].
  symmetry in E1. destruct (cut_line _ _ _ E1) as (l' & El' & Ep); [discriminate|intro Z; apply Cl; rewrite E2, Z; reflexivity|]. subst l.
  destruct (rs_line_part e C s a _ p rest k cb i _ M R) as (s1 & H1 & M1).
  { rewrite app_assoc in El. apply (plain_part _ l' r Gs) in El. now apply Forall_app in El. }
  { etransitivity; [|exact Lim1]. rewrite status_line_body, <- El. unfold blen. rewrite !app_length. lia. }
  exists s1. split; [exact H1|]. rewrite E2, El'. apply (lp_line (p ++ rest) l'); [now rewrite <- app_assoc|assumption].
Qed.
Lemma lpaused_goes c S s : lclean S -> c <> [] -> lpaused (c ++ S) s -> loutcome S (opened SResp c s).
Proof using Y Gm Gr Lb Sm Lim Ec Ho Ct.
  intros Cl Nc P. remember (c ++ S) as X eqn:EX. pose proof (ropened_rest c s) as R.
  destruct P as [s Q|p l s El M|ls1 ls2 p q t hs s El Eq Nq Hp Eh Rd Tp M|b1 b2 t es s Eb Rd Be M].
  - apply (ropened_resting _ _ _ _ c) in Q. destruct Ho as [Ha Hr].
    destruct (rs_start e i tr C _ c c 0 0 [] t0 m Y Q Ct Ha R Nc) as (s1 & H1 & R1 & M1). apply (loutcome_next _ _ _ H1).
    apply (lfrom_line S s1 c c 0 0 [] (line_body r) Cl eq_refl M1 R1). rewrite <- EX. unfold response_text, rafter_line, head_text. rewrite status_line_body. now rewrite <- !app_assoc.
  - apply (lfrom_line S _ c c 0 0 p l Cl El (proj1 (ropened_mile _ _ _ _ _ _ _ _ c _ M)) R). now symmetry.
  - apply (lfrom_headers S _ c c 0 t (Some p) q ls1 ls2 hs El Eq Nq Hp Eh Rd Tp (proj1 (ropened_mile _ _ _ _ _ _ _ _ c _ M)) R). now symmetry.
  - apply (lfrom_body S _ c c 0 0 t b1 es Rd Be (proj1 (ropened_mile _ _ _ _ _ _ _ _ c _ M)) R). now rewrite <- EX.
Qed.
Lemma lpaused_bufsum S s : lpaused S s -> bufsum (s_resp s) <= c_field_limit (e_cfg e) /\ live_status (d_status (s_resp s)).
Proof using Lim Lb.
  intro P. unfold bufsum. destruct P as [s Q|p l s El M|ls1 ls2 p q t hs s El Eq Nq Hp Eh Rd Tp M|b1 b2 t es s Eb Rd Be M].
  1: rewrite (rr_buf _ _ _ _ _ Q), (rr_header _ _ _ _ _ Q); split; [change (blen []) with 0; lia|exact (rlive_live _ (rr_live _ _ _ _ _ Q))].
  all: rewrite (ProofsRStream.rm_buf _ _ _ _ _ _ _ _ _ M), (ProofsRStream.rm_header _ _ _ _ _ _ _ _ _ M); (split; [|exact (rlive_live _ (ProofsRStream.rm_live _ _ _ _ _ _ _ _ _ M))]).
  all: try (change (blen []) with 0; lia).
  - rewrite N.add_0_r. etransitivity; [|apply Lim]. unfold head_text. rewrite status_line_body, <- El. unfold blen. rewrite !app_length. lia.
  - change (blen []) with 0. rewrite N.add_0_l. etransitivity; [|apply Lim].
    unfold head_text. rewrite El. unfold block_text in *. rewrite !map_app, !concat_app, <- !app_assoc, <- Eq. unfold blen. rewrite !app_length. lia.
Qed.
Lemma lstream_calls cs : forall S s, ~ In [] cs -> (forall a b, cs = a ++ b -> a <> [] -> lclean (concat b ++ S)) -> lpaused (concat cs ++ S) s ->
  exists s', run_ops (map (fun c => OpResp (pd_slice c)) cs) e s = (ROk (map (fun _ => Some SsData) cs), s') /\ lpaused S s'.
Proof using Y Gm Gr Lb Sm Lim Ec Ho Ct.
  induction cs as [|c cs IH]; intros S s Ne Cl P; [exists s; split; [reflexivity|exact P]|].
  cbn [concat] in P. rewrite <- app_assoc in P. assert (Nc : c <> []) by (intros ->; apply Ne; now left).
  destruct (lpaused_bufsum _ _ P) as [B L]. destruct (lpaused_goes c _ s (Cl [c] cs eq_refl ltac:(discriminate)) Nc P) as (s1 & R1 & P1).
  apply (rruns_data_call e c s s1 Nc B L) in R1. destruct (IH S s1) as (s2 & R2 & P2); [intro Z; apply Ne; now right| |exact P1|].
  - intros a b -> Na. apply (Cl (c :: a) b); [reflexivity|discriminate].
  - exists s2. split; [|exact P2]. cbn [map run_ops]. unfold bind at 1. cbn [run_op]. unfold bind at 1. rewrite R1. unfold ret at 1. unfold bind at 1. rewrite R2. reflexivity.
Qed.
Lemma lpaused_end s : lpaused [] s -> exists t es, rready m r (rall_lines r) (blen (rp_body r)) (blen (coded_text (rp_content r))) t /\ rseen_events i r es /\
  rmile StStreamClose None [] None i t (tr_of es tr) C s.
Proof using Ec.
  intro P. remember (@nil N) as X eqn:EX in P.
  destruct P as [s Q|p l s El M|ls1 ls2 p q t hs s El Eq Nq Hp Eh Rd Tp M|b1 b2 t es s Eb Rd Be M].
  - discriminate EX.
  - apply app_eq_nil in EX as [EX _]. apply app_eq_nil in EX as [_ EX]. discriminate EX.
  - apply app_eq_nil in EX as [EX _]. contradiction.
  - subst b2. rewrite app_nil_r in Eb. subst b1. exists t, es. unfold rall_lines, rp_body. rewrite Ec. cbn [trailer_of data_of coded_text]. rewrite app_nil_r. split; [exact Rd|]. split; [|exact M].
    exists es, []. unfold rp_body. rewrite Ec. split; [exact Be|]. split; [reflexivity|now rewrite app_nil_r].
Qed.
End Open.
