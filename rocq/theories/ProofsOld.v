(** HTTP/0.9: a request line without a protocol, and what follows it. *)
From Verif Require Import Base Spec SpecTx SpecMsg SpecResp SpecEnd SpecConnect SpecOld ModelUtil ModelBstr ModelParsers ModelHeaders ModelState ModelTx ModelConn SpecConn ProofsBase ProofsBytes ProofsParsers ProofsHeaders ProofsTx ProofsConn ProofsCore ProofsLoop ProofsHist ProofsQuiet ProofsEval ProofsBody ProofsHead ProofsFrame ProofsStream ProofsChunk ProofsMsg ProofsRStream ProofsRHead ProofsRBody ProofsRMsg ProofsTalk ProofsEnd ProofsClose ProofsConnect4.

(** * The request line *)
Definition sline_of (q : simple) : bytes := sq_method q ++ [32] ++ sq_target q.
Definition with_sline (q : simple) (t : tx) : tx :=
  upd_dir SReq (set_t_proton ProtoV0_9) (set_x_is09 true
   (set_x_uri (Some (sq_target q)) (set_x_methodn (MKnown (sq_method q)) (set_x_method (Some (sq_method q))
     (upd_dir SReq (set_t_line (Some (sline_of q))) t))))).
Lemma schomp_line q : good_simple q -> chomp (simple_text q) = sline_of q.
Proof.
  intros (_ & _ & H2 & H3 & H4 & _). unfold chomp, simple_text, sline_of. apply (drop_while_end_unique _ _ _ (sq_end q)).
  - now rewrite <- !app_assoc.
  - destruct H4 as [-> | ->]; repeat constructor.
  - intros x a E. destruct (exists_last H2) as (b & y & Eb). rewrite Eb in E, H3. rewrite !app_assoc in E. apply app_inj_tail in E as [_ <-].
    apply Forall_app in H3 as [_ H3]. apply Forall_inv in H3. clear - H3; cbn in *; lia.
Qed.
Lemma sparse_line_good cfg q t : good_simple q -> fst (conn_parse_request_line cfg (sline_of q) t) = with_sline q t.
Proof.
  intros (H1 & _ & H2 & H3 & _). destruct (method_visible _ H1) as [H4 H5]. unfold conn_parse_request_line.
  assert (V0 : forall c, visible c -> negb (c =? 0) = true) by (intros c Hc; unfold visible in Hc; lia).
  assert (V1 : forall c, visible c -> negb (is_space c) = true) by (intros c Hc; now rewrite (visible_space _ Hc)).
  replace (match c_pers cfg with APACHE_2 => fst (span (fun c => negb (c =? 0)) (sline_of q)) | _ => sline_of q end) with (sline_of q).
  2:{ destruct (c_pers cfg); try reflexivity. rewrite <- (app_nil_r (sline_of q)) at 2. rewrite span_all; [reflexivity| |discriminate].
      unfold sline_of. apply Forall_app. split; [|constructor; [reflexivity|]].
      - apply (visible_all _ _ V0 H5).
      - apply (visible_all _ _ V0 H3). }
  replace (span is_space (sline_of q)) with (@nil N, sline_of q).
  2:{ unfold sline_of. destruct (sq_method q) as [|x m]; [congruence|]. inversion_clear H5 as [|? ? Hx Hm]. cbn [app span]. now rewrite (visible_space _ Hx). }
  cbv iota beta. replace (span (fun c => negb (is_space c)) (sline_of q)) with (sq_method q, [32] ++ sq_target q).
  2:{ symmetry. apply span_all; [apply (visible_all _ _ V1 H5)|]. intros c r' [= <- _]. reflexivity. }
  cbv iota beta. replace (span is_space ([32] ++ sq_target q)) with ([32], sq_target q).
  2:{ symmetry. rewrite (span_all is_space); [reflexivity|repeat constructor|]. intros c r' E. rewrite E in H3. apply visible_space. now inversion_clear H3. }
  cbn [is_nil negb andb].
  replace (is_nil (sq_target q)) with false by (destruct (sq_target q); [congruence|reflexivity]).
  rewrite (trimmed_visible _ H3).
  assert (Ns : Forall (fun c => (c =? 32) = false) (sq_target q)) by (revert H3; apply Forall_impl; intros c Hc; lia).
  assert (S1 : split_on_predicate (sq_target q) (allow_space_uri (c_dcfg cfg)) true (fun c => c =? 32) = (sq_target q, [])).
  { unfold split_on_predicate.
    assert (Z : (if allow_space_uri (c_dcfg cfg) then match split_last (fun c => c =? 32) (sq_target q) with
                   | Some (a, b) => (a, b) | None => (sq_target q, []) end
                 else match split_first (fun c => c =? 32) (sq_target q) with
                   | (a, Some b) => (a, b) | (a, None) => (a, []) end) = (sq_target q, [])).
    { destruct (allow_space_uri (c_dcfg cfg)).
      - apply split_last_None in Ns. now rewrite Ns.
      - clear -Ns. induction Ns as [|x m Hx _ IH]; [reflexivity|]. cbn [split_first]. rewrite Hx. destruct (split_first (fun c => c =? 32) m) as [a [b|]]; injection IH; intros; subst; reflexivity. }
    rewrite Z. rewrite (trimmed_visible _ H3). reflexivity. }
  rewrite S1. cbv iota beta. replace (existsb is_space (sq_target q)) with false.
  2:{ symmetry. clear -H3. induction H3 as [|x m Hx _ IH]; [reflexivity|]. cbn [existsb]. rewrite IH, (visible_space x Hx). reflexivity. }
  rewrite Bool.andb_false_r. cbn [is_nil fst]. rewrite (method_new_known _ H1). reflexivity.
Qed.
Lemma sline_not_ignorable pers q : good_simple q -> is_line_ignorable pers (simple_text q) = false.
Proof.
  intros (H1 & _ & H2 & _). destruct (method_visible _ H1) as [H4 H5]. unfold is_line_ignorable, is_line_terminator.
  destruct (sq_method q) as [|x m] eqn:E; [congruence|]. inversion_clear H5 as [|? ? Hx Hm].
  assert (Es : exists y z w, simple_text q = x :: y :: z :: w).
  { unfold simple_text. rewrite E. destruct m as [|y [|z m]]; [destruct (sq_target q); [congruence|]| |]; cbn [app]; eexists _, _, _; reflexivity. }
  destruct Es as (y & z & w & ->).
  replace (match pers with IIS_5_0 => is_line_whitespace (x :: y :: z :: w) | _ => false end) with false.
  2:{ destruct pers; try reflexivity. unfold is_line_whitespace. cbn [forallb]. now rewrite (visible_space _ Hx). }
  unfold is_line_empty. cbn [bytes_eqb]. rewrite !andb_false_r. reflexivity.
Qed.
Lemma sline_no_lf q : good_simple q -> exists l, simple_text q = l ++ [10] /\ ~ In 10 l.
Proof.
  intros (H1 & _ & H2 & H3 & H6 & _). destruct (method_visible _ H1) as [H4 H5].
  assert (Ee : exists x, sq_end q = x ++ [10] /\ ~ In 10 x) by (destruct H6 as [-> | ->]; [exists []|exists [13]]; (split; [reflexivity|]); cbn; intuition discriminate). destruct Ee as (x & Ee & Nx).
  exists (sq_method q ++ [32] ++ sq_target q ++ x).
  split; [unfold simple_text; rewrite Ee, <- !app_assoc; reflexivity|]. rewrite Forall_forall in H3, H5. intro I.
  apply in_app_or in I as [I|I]; [specialize (H5 _ I); unfold visible in H5; lia|]. apply in_app_or in I as [[I|[]]|I]; [discriminate|].
  apply in_app_or in I as [I|I]; [specialize (H3 _ I); cbn in H3; lia|]. contradiction.
Qed.
Lemma sline_split q p c : good_simple q -> p ++ c = simple_text q -> c <> [] -> exists l, c = l ++ [10] /\ ~ In 10 l.
Proof.
  intros G E Nq. destruct (sline_no_lf q G) as (l & El & Hl). destruct (exists_last Nq) as (q' & x & ->). rewrite El, app_assoc in E.
  apply app_inj_tail in E as [<- ->]. exists q'. split; [reflexivity|]. intro I. apply Hl, in_or_app. now right.
Qed.
Lemma sline_any e s t t1 r a p q tail k cb : yes e -> good_simple r -> d_state (s_req s) = StLine -> d_buf (s_req s) = p -> d_header (s_req s) = None ->
  rest_of a (q ++ tail) k cb s -> p ++ q = simple_text r -> q <> [] -> blen (simple_text r) <= c_field_limit (e_cfg e) ->
  tx_get (s_ridx s) (s_txs s) = Some t -> parse_request_uri (e_ip6 e) (c_dcfg (e_cfg e)) (with_sline r t) = Some t1 ->
  exists l, handle_request_state e s = (ROk tt, set_s_logs l (set_s_trace
    ((mk_ev HRequestLine (s_ridx s) PlNone, SOk) :: (mk_ev HRequestUriNormalize (s_ridx s) PlNone, SOk) :: param_events (s_ridx s) (told_params (e_cfg e) t1) ++ s_trace s)
    (set_s_txs (tx_set (s_ridx s) (stored e t1) (s_txs s)) (set_s_input (mk_pdata (Some a) None (k + blen q) cb)
      (set_s_req (set_d_state StProtocol (set_d_consumed (k + blen q) (set_d_buf [] (s_req s)))) s))))).
Proof.
  intros Y G D B Hh R E Nq Lim T P. unfold handle_request_state. unfold bind at 1, get_d at 1. cbn [s_dir]. rewrite D.
  unfold request_line. unfold bind at 1, input at 1. unfold bind at 1, get_d at 1.
  assert (S1 : pd_as_slice (s_input s) = q ++ tail) by (destruct R as (-> & Hk & Hr); rewrite pd_slice_at; assumption).
  rewrite S1. destruct (sline_split r p q G E Nq) as (q' & Eq & Hq').
  assert (S2 : take_till_lf (q ++ tail) = POk tail q) by (apply take_till_lf_spec; split; [reflexivity|eauto]).
  rewrite S2. clear S1 S2. destruct R as (I & _ & _).
  destruct s as [rq rs oe cc ci ri pi txs cf si so tr lg inp]. destruct rq as [d1 d2 d3 d4 d5 d6 d7 d8 d9 d10]. cbn in D, B, I, T, Hh. subst d3 d4 d8 inp.
  unfold take_buf. ev. rewrite E. unfold request_line_complete, check_buffer_limit.
  assert (Ln : simple_text r <> []) by (rewrite <- E; destruct p; [now destruct q|discriminate]).
  destruct (blen (simple_text r) =? 0) eqn:E0; [destruct (simple_text r); [congruence|discriminate E0]|]. ev.
  replace (blen [] + blen (simple_text r) + 0) with (blen (simple_text r)) by (cbn; lia).
  destruct (c_field_limit (e_cfg e) <? blen (simple_text r)) eqn:E1; [lia|].
  destruct (simple_text r) as [|b0 bs] eqn:El; [congruence|]. rewrite <- El in *. ev.
  rewrite (need_tx_get SReq _ _ t) by exact T. rewrite (sline_not_ignorable _ _ G).
  rewrite (schomp_line _ G).
  match goal with |- context [mod_tx_log SReq ?f e ?z] => destruct (mod_tx_log_get SReq f e z t T) as [l E2] end.
  rewrite (sparse_line_good _ _ _ G) in E2. rewrite E2. clear E2. ev.
  match goal with |- context [state_request_line e ?z] => destruct (state_line_any e z (with_sline r t) t1 Y) as (l2 & E2) end.
  - cbn. apply (tx_get_set_eq _ _ _ _ T).
  - exact P.
  - exists l2. rewrite E2. ev. rewrite tx_set_set. reflexivity.
Qed.
Lemma so_line e C s a r t1 tr p q tail k cb i t : yes e -> good_simple r -> mile StLine None p None i t tr C s -> parse_request_uri (e_ip6 e) (c_dcfg (e_cfg e)) (with_sline r t) = Some t1 ->
  rest_of a (q ++ tail) k cb s -> p ++ q = simple_text r -> q <> [] -> blen (simple_text r) <= c_field_limit (e_cfg e) ->
  exists s', step SReq e s = (ROk None, s') /\ rest_of a tail (k + blen q) cb s' /\ 
    mile StProtocol None [] None i (stored e t1) ((mk_ev HRequestLine i PlNone, SOk) :: (mk_ev HRequestUriNormalize i PlNone, SOk) :: param_events i (told_params (e_cfg e) t1) ++ tr) C s'.
Proof.
  intros Y G [M1 M2 M3 M4 M5 M6 M7 M8 M9 M10 M11 M12] P R E Nq Lim. rewrite <- M7 in M8.
  destruct (sline_any e s t t1 r a p q tail k cb Y G M1 M5 M6 R E Nq Lim M8 P) as (l & H).
  apply (step_next SReq) in H; [|exact (rest_no_gap _ _ _ _ _ R)|exact (live_not_tunnel _ M3)|discriminate].
  eexists. split; [exact H|]. destruct (rest_skip _ _ _ _ _ _ R) as [L1 L2]. split; [split; [reflexivity|split; assumption]|].
  rewrite M7, M9. constructor; cbn; try assumption; try reflexivity.
  - rewrite M7 in *. apply (tx_get_set_eq _ _ _ _ M8).
  - intros j Hj. rewrite tx_get_set_other by congruence. now apply M11.
  - now rewrite length_set.
Qed.
(** Nothing follows the line in its segment: the request is complete. *)
Lemma so_protocol e C s a tr k cb i t : mile StProtocol None [] None i t tr C s -> x_is09 t = true -> rest_of a [] k cb s ->
  exists s', step SReq e s = (ROk None, s') /\ rest_of a [] k cb s' /\ mile StFinalize None [] None i t tr C s'.
Proof.
  intros [M1 M2 M3 M4 M5 M6 M7 M8 M9 M10 M11 M12] I9 R. rewrite <- M7 in M8.
  assert (H : handle_state SReq e s = (ROk tt, set_s_req (set_d_state StFinalize (s_req s)) s)).
  { unfold handle_state, by_side, handle_request_state. unfold bind at 1, get_d at 1. cbn [s_dir]. rewrite M1. unfold request_protocol.
    unfold bind at 1. rewrite (need_tx_get SReq _ _ _ M8). rewrite I9. cbn [negb]. unfold bind at 1, slice. rewrite (rest_slice _ _ _ _ _ R). reflexivity. }
  apply (step_next SReq) in H; [|exact (rest_no_gap _ _ _ _ _ R)|exact (live_not_tunnel _ M3)|discriminate].
  eexists. split; [exact H|]. split; [exact R|]. rewrite M7 in M8. constructor; cbn; assumption || reflexivity.
Qed.
(** The parser looks at nothing that the client sends any more. *)
Record ignoring (i : N) (t : tx) (tr : list (event * status)) (C : ctx) (s : st) : Prop := {
  ig_state : d_state (s_req s) = StIgnore09; ig_recv : d_recv (s_req s) = None; ig_buf : d_buf (s_req s) = []; ig_header : d_header (s_req s) = None;
  ig_live : live_status (d_status (s_req s)); ig_idx : s_ridx s = i + 1; ig_tx : tx_get i (s_txs s) = Some t; ig_trace : s_trace s = tr; ig_outside : outside s = cx_rest C;
  ig_next : tx_get (i + 1) (s_txs s) = None \/ tx_get (i + 1) (s_txs s) = Some tx_new;
  ig_others : forall j, j <> i -> j <> i + 1 -> tx_get j (s_txs s) = cx_table C j }.
Lemma so_complete e C s a tr k cb i t : yes e -> mile StFinalize None [] None i t tr C s -> rest_of a [] k cb s ->
  t_cep (x_req t) = CeNone -> t_prog (x_req t) <> PComplete -> t_prog (x_resp t) <> PComplete -> x_is09 t = true -> request_has_body t = false -> cx_table C (i + 1) = None -> i + 1 < 2 ^ 64 ->
  exists s', step SReq e s = (ROk None, s') /\ rest_of a [] k cb s' /\
    ignoring i (upd_dir SReq (set_t_prog PComplete) t) ((mk_ev HRequestComplete i PlNone, SOk) :: tr) C s'.
Proof.
  intros Y M R Ce Pq Ps I9 Nb Nx Li. pose proof (final_empty e s a k cb (ml_state _ _ _ _ _ _ _ _ _ M) (ml_live _ _ _ _ _ _ _ _ _ M) R) as H.
  destruct M as [M1 M2 M3 M4 M5 M6 M7 M8 M9 M10 M11 M12]. rewrite <- M7 in M8.
  rewrite (request_complete_eval e s t Y M8 Ce) in H; [|destruct (t_prog (x_req t)); try reflexivity; congruence|exact M4].
  unfold completed in H. rewrite Nb, I9 in H.
  replace (is_complete (upd_dir SReq (set_t_prog PComplete) t)) with false in H by (symmetry; unfold is_complete; cbn [x_resp upd_dir set_x_dir set_x_req x_dir]; destruct (t_prog (x_resp t)); try (cbn; reflexivity); congruence).
  rewrite Bool.andb_false_r in H.
  assert (Wi : wadd (s_ridx s) 1 = i + 1) by (rewrite M7; unfold wadd; apply N.mod_small; exact Li).
  apply (step_next SReq) in H; [|exact (rest_no_gap _ _ _ _ _ R)| |].
  2:{ destruct (_ <? _); exact (live_not_tunnel _ M3). }
  2:{ destruct (_ <? _); discriminate. }
  eexists. split; [exact H|]. split; [destruct (_ <? _); exact R|].
  unfold push. rewrite <- M7 in Nx, M11, Wi |- *.
  assert (Ot : forall j, j <> s_ridx s -> tx_get j (tx_set (s_ridx s) (upd_dir SReq (set_t_prog PComplete) t) (s_txs s)) = cx_table C j) by (intros j Hj; rewrite tx_get_set_other by congruence; now apply M11).
  destruct (_ <? _); constructor; cbn; try assumption; try reflexivity.
  all: try (rewrite M9; reflexivity); try (apply (tx_get_set_eq _ _ _ _ M8)).
  all: try (left; rewrite Ot by lia; exact Nx).
  all: intros j Hj _; apply Ot; exact Hj.
Qed.
(** A call of the client then. *)
Lemma ignore_eval e s a c k cb : d_state (s_req s) = StIgnore09 -> d_recv (s_req s) = None -> rest_of a c k cb s ->
  exists s', runs e s s' /\ d_state (s_req s') = StIgnore09 /\ d_recv (s_req s') = None /\ d_buf (s_req s') = d_buf (s_req s) /\ d_header (s_req s') = d_header (s_req s) /\
    d_status (s_req s') = SsData /\ s_ridx s' = s_ridx s /\ outside s' = outside s /\ s_trace s' = s_trace s /\ looked e (s_ridx s) (s_txs s) (s_txs s').
Proof.
  intros D1 D2 R. 
  assert (H : exists s1, handle_state SReq e s = (RErr SData, s1) /\ s_req s1 = set_d_consumed (k + blen c) (s_req s) /\ s_ridx s1 = s_ridx s /\ outside s1 = outside s /\ s_trace s1 = s_trace s /\ s_txs s1 = s_txs s).
  { unfold handle_state, by_side, handle_request_state. unfold bind at 1, get_d at 1. cbn [s_dir]. rewrite D1. unfold request_ignore_data_after_http_0_9.
    unfold bind at 1, input at 1. rewrite (rest_pd_len _ _ _ _ _ R). destruct R as (I & _ & _).
    destruct s as [rq rs oe cc ci ri pi txs cf si so tr lg inp]. destruct rq as [d1 d2 d3 d4 d5 d6 d7 d8 d9 d10]. cbn in D1, D2, I. subst.
    destruct (pd_is_empty _); cbn [negb when]; unfold consume; ev; eexists; (split; [reflexivity|]); repeat split; reflexivity. }
  destruct H as (s1 & H & F1 & F2 & F3 & F4 & F5). apply (step_err SReq) in H; [|exact (rest_no_gap _ _ _ _ _ R)].
  destruct (after_step_data SReq SData e s1) as (p & l & H3 & H4 & _); [now left|cbn [s_dir]; rewrite F1; exact D2|].
  rewrite H3 in H. eexists. split; [apply runs_last; exact H|]. cbn [s_dir s_idx] in *. rewrite F1, F2, F5 in *. cbn. unfold outside in *. cbn. 
  repeat split; assumption || reflexivity.
Qed.

(** * The segments of the request *)
Section Request.
Variables (e : env) (q : simple) (i : N) (C : ctx) (tr : list (event * status)).
Hypotheses (Y : yes e) (Gq : good_simple q) (Lim : blen (simple_text q) <= c_field_limit (e_cfg e))
  (Room : N.of_nat (cx_size C) < c_max_tx (e_cfg e)) (Free : cx_table C (i + 1) = None) (Ix : i + 1 < 2 ^ 64)
  (Aw : d_status (snd (fst (cx_rest C))) <> SsDataOther).
Inductive qpaused : bytes -> st -> Prop :=
| qp_idle s : resting [] i tr C s -> qpaused (simple_text q) s
| qp_line p r s : p ++ r = simple_text q -> mile StLine None p None i start_tx (tr_of [mk_ev HRequestStart i PlNone] tr) C s -> qpaused r s.
Definition qdone (s : st) : Prop := exists t es, simple_events (e_cfg e) i q es /\ simply_asked q t /\ reply_part t = reply_part tx_new /\ ignoring i t (tr_of es tr) C s.
Definition qoutcome (S : bytes) (s : st) : Prop := exists s', runs e s s' /\ (if is_nil S then qdone s' else qpaused S s').
Lemma qoutcome_next S s s1 : step SReq e s = (ROk None, s1) -> qoutcome S s1 -> qoutcome S s.
Proof using. intros H (s' & R & P). exists s'. split; [eapply runs_next; eassumption|exact P]. Qed.
Lemma qfrom_line S s a p c k cb : p ++ c ++ S = simple_text q -> c <> [] -> mile StLine None p None i start_tx (tr_of [mk_ev HRequestStart i PlNone] tr) C s -> rest_of a c k cb s -> qoutcome S s.
Proof using Y Gq Lim Room Free Ix.
  intros E Nc M R. destruct S as [|x S].
  - rewrite app_nil_r in E.
    assert (Gq' := Gq). destruct Gq' as (_ & Nm & _).
    destruct (uri_good (e_ip6 e) (c_dcfg (e_cfg e)) (with_sline q start_tx) (sq_method q) eq_refl Nm eq_refl) as [t1 E1].
    destruct (uri_told e (with_sline q start_tx) (sq_method q) t1 (sq_target q) E1 eq_refl Nm eq_refl eq_refl) as ((K1 & K2 & K3 & K4 & K5 & K6) & [A1 A2 A3 A4 A5] & Kp).
    rewrite <- (app_nil_r c) in R. destruct (so_line e C s a q t1 _ p c [] k cb i start_tx Y Gq M E1 R E Nc Lim) as (s1 & H1 & R1 & M1).
    apply (qoutcome_next _ _ _ H1). clear H1. set (t := stored e t1) in *.
    destruct (so_protocol e C s1 a _ _ cb i t M1 ltac:(rewrite K6; reflexivity) R1) as (s2 & H2 & R2 & M2). apply (qoutcome_next _ _ _ H2). clear H2.
    assert (Rx : x_resp t = txdir_new) by (unfold reply_part in K2; injection K2; intros; assumption).
    destruct (so_complete e C s2 a _ _ cb i t Y M2 R2) as (s3 & H3 & R3 & M3); try (rewrite ?K1, ?Rx, ?K6; discriminate || reflexivity); [unfold request_has_body; rewrite K1; reflexivity|exact Free|exact Ix|].
    apply (qoutcome_next _ _ _ H3). clear H3. destruct M3 as [I1 I2 I3 I4 I5 I6 I7 I8 I9 I10 I11].
    destruct (ignore_eval e s3 a [] _ cb I1 I2 R3) as (s4 & H4 & J1 & J2 & J3 & J4 & J5 & J6 & J7 & J8 & J9). rewrite I6 in J9.
    exists s4. split; [exact H4|]. cbn [is_nil]. exists (upd_dir SReq (set_t_prog PComplete) t).
    exists ([mk_ev HRequestStart i PlNone] ++ map (fun nv => mk_ev HParam i (PlParam (fst nv) (snd nv))) (sent_params (e_cfg e) (sq_target q)) ++ [mk_ev HRequestUriNormalize i PlNone; mk_ev HRequestLine i PlNone; mk_ev HRequestComplete i PlNone]).
    split; [exists (sent_params (e_cfg e) (sq_target q)); split; [apply sent_reported|reflexivity]|]. split; [|split].
    + constructor; cbn; rewrite ?K1, ?K3, ?K4, ?K5, ?K6; try reflexivity; [exists (parse_uri uri_default (sq_target q)); split; [exact A1|apply located_parse]|split; reflexivity].
    + exact K2.
    + constructor; try congruence.
      * rewrite J5. now left.
      * exact (looked_some _ _ _ _ _ _ J9 I7).
      * rewrite J8, I8, Kp. unfold tr_of, param_events. rewrite !map_app, !rev_app_distr, map_map. cbn [map rev app]. rewrite <- !app_assoc. reflexivity.
      * destruct J9 as [-> | (_ & _ & ->)]; [exact I10|right; apply tx_get_put].
      * intros j Hj Hj'. rewrite (looked_other _ _ _ _ j J9 Hj'). now apply I11.
  - destruct (sline_no_lf q Gq) as (l & El & Nl).
    assert (Nc10 : ~ In 10 c).
    { destruct (exists_last (l := x :: S) ltac:(discriminate)) as (b & y & Eb). rewrite Eb in E. rewrite El in E. rewrite !app_assoc in E. apply app_inj_tail in E as [E _]. intro I. apply Nl. rewrite <- E. apply in_or_app. left. apply in_or_app. now right. }
    destruct (ph_line_part e C s a _ p c k cb i start_tx M R Nc10) as (s1 & H1 & M1).
    { etransitivity; [|apply Lim]. rewrite <- E. unfold blen. rewrite !app_length. lia. }
    exists s1. split; [exact H1|]. cbn [is_nil]. apply (qp_line (p ++ c)); [now rewrite <- app_assoc|exact M1].
Qed.
Lemma qgoes c S s : c <> [] -> qpaused (c ++ S) s -> qoutcome S (opened SReq c s).
Proof using Y Gq Lim Room Free Ix Aw.
  intros Nc P. remember (c ++ S) as X eqn:EX. pose proof (opened_rest c s) as R. destruct P as [s Q|p r s El M].
  - apply (opened_resting _ _ _ _ c _ Aw) in Q. destruct (ph_start e i tr C _ c c 0 0 [] Y Q Room R Nc) as (s1 & H1 & R1 & M1). apply (qoutcome_next _ _ _ H1).
    apply (qfrom_line S s1 c [] c 0 0); [now symmetry|exact Nc|exact M1|exact R1].
  - subst r. apply (qfrom_line S _ c p c 0 0 El Nc); [|exact R]. apply opened_mile; assumption.
Qed.
Lemma qbufsum S s : qpaused S s -> bufsum (s_req s) <= c_field_limit (e_cfg e) /\ live_status (d_status (s_req s)).
Proof using Lim Room Ix.
  unfold bufsum. intros [s' Q|p r s' El M].
  - rewrite (rs_buf _ _ _ _ _ Q), (rs_header _ _ _ _ _ Q). split; [change (blen []) with 0; lia|apply Q].
  - rewrite (ml_buf _ _ _ _ _ _ _ _ _ M), (ml_header _ _ _ _ _ _ _ _ _ M). split; [|apply M]. etransitivity; [|apply Lim]. rewrite <- El. unfold blen. rewrite app_length. lia.
Qed.
Lemma qcalls cs : cs <> [] -> ~ In [] cs -> forall s, qpaused (concat cs) s -> exists s', run_ops (reqs cs) e s = (ROk (more (reqs cs)), s') /\ qdone s'.
Proof using Y Gq Lim Room Free Ix Aw.
  induction cs as [|c cs IH]; intros Ncs Ne s P; [congruence|]. cbn [concat] in P. assert (Nc : c <> []) by (intros ->; apply Ne; now left).
  destruct (qbufsum _ _ P) as [B L]. destruct (qgoes c _ s Nc P) as (s1 & R1 & P1). apply (runs_data_call e c s s1 Nc B L) in R1.
  destruct cs as [|c2 cs].
  - exists s1. split; [|exact P1]. cbn [reqs map run_ops run_op more]. unfold bind. rewrite R1. reflexivity.
  - assert (Nn : is_nil (concat (c2 :: cs)) = false) by (cbn [concat]; destruct c2; [exfalso; apply Ne; right; now left|reflexivity]). rewrite Nn in P1.
    destruct (IH ltac:(discriminate) ltac:(intro Z; apply Ne; now right) s1 P1) as (s2 & R2 & P2).
    exists s2. split; [|exact P2]. remember (c2 :: cs) as cs' eqn:Ecs. unfold reqs in *. cbn [map run_ops]. unfold bind at 1. cbn [run_op]. unfold bind at 1. rewrite R1. unfold ret at 1. unfold bind at 1. rewrite R2. reflexivity.
Qed.
End Request.

(** * What follows *)
(** After the request and the segments [cs] of the response. *)
Record aged (n : N) (T : N -> option tx) (q : simple) (cs : list bytes) (t : tx) (tr : list (event * status)) (s : st) : Prop := {
  ag_state : d_state (s_req s) = StIgnore09; ag_recv : d_recv (s_req s) = None; ag_buf : d_buf (s_req s) = []; ag_header : d_header (s_req s) = None;
  ag_live : live_status (d_status (s_req s)); ag_idx : s_ridx s = n + 1;
  ag_rstate : if is_nil cs then d_state (s_resp s) = StIdle /\ (d_prev (s_resp s) = StIdle \/ d_prev (s_resp s) = StNone) else d_state (s_resp s) = StStreamClose /\ d_prev (s_resp s) = StStreamClose;
  ag_rlive : rlive (d_status (s_resp s)); ag_rrecv : d_recv (s_resp s) = None; ag_rbuf : d_buf (s_resp s) = []; ag_rheader : d_header (s_resp s) = None;
  ag_ridx : s_pidx s = n; ag_end : s_other_at_end s = false; ag_trace : s_trace s = tr;
  ag_tx : tx_get n (s_txs s) = Some t; ag_asked : simply_asked q t; ag_answered : simply_answered cs (raw_progress cs) t; ag_cep : t_cep (x_resp t) = CeNone;
  ag_next : tx_get (n + 1) (s_txs s) = None \/ tx_get (n + 1) (s_txs s) = Some tx_new;
  ag_others : forall j, j <> n -> j <> n + 1 -> tx_get j (s_txs s) = T j;
  ag_keys : NoDup (map fst (s_txs s)) }.
Lemma aged_req e n T q cs t tr c s : c <> [] -> aged n T q cs t tr s -> exists s', run_op (OpReq (pd_slice c)) e s = (ROk (Some SsData), s') /\ aged n T q cs t tr s'.
Proof.
  intros Nc [A1 A2 A3 A4 A5 A6 A7 A8 A9 A10 A11 A12 A13 A14 A15 A16 A17 A18 A19 A20 A21].
  assert (Aw : d_status (s_resp s) <> SsDataOther) by (destruct A8 as [-> | ->]; discriminate).
  destruct (ignore_eval e (opened SReq c s) c c 0 0) as (s' & H & J1 & J2 & J3 & J4 & J5 & J6 & J7 & J8 & J9); [rewrite opened_awake by exact Aw; exact A1|rewrite opened_awake by exact Aw; exact A2|apply opened_rest|].
  rewrite (opened_awake c s Aw) in *. change (s_ridx (count_data SReq (blen c) (offer SReq (pd_slice c) s))) with (s_ridx s) in *. change (s_trace (count_data SReq (blen c) (offer SReq (pd_slice c) s))) with (s_trace s) in *. change (s_txs (count_data SReq (blen c) (offer SReq (pd_slice c) s))) with (s_txs s) in *.
  change (d_buf (s_req (count_data SReq (blen c) (offer SReq (pd_slice c) s)))) with (d_buf (s_req s)) in *. change (d_header (s_req (count_data SReq (blen c) (offer SReq (pd_slice c) s)))) with (d_header (s_req s)) in *.
  change (outside (count_data SReq (blen c) (offer SReq (pd_slice c) s))) with (outside s) in *. rewrite <- (opened_awake c s Aw) in H.
  apply (runs_data_call e c s s' Nc) in H; [|unfold bufsum; rewrite A3, A4; apply N.le_0_l|exact A5].
  unfold outside in J7. injection J7 as O1 O2 O3. rewrite A6 in J9.
  exists s'. split; [cbn [run_op]; unfold bind; rewrite H; reflexivity|]. constructor; rewrite ?O2; try assumption; try congruence.
  - rewrite J5. now left.
  - exact (looked_some _ _ _ _ _ _ J9 A15).
  - destruct J9 as [-> | (_ & _ & ->)]; [exact A19|right; apply tx_get_put].
  - intros j Hj Hj'. rewrite (looked_other _ _ _ _ j J9 Hj'). now apply A20.
  - exact (looked_keys _ _ _ _ J9 A21).
Qed.
Definition rstarted (t : tx) : tx := upd_dir SResp (fun d => set_t_prog PBody (set_t_cep CeNone (set_t_coding CdIdentity d))) t.
Lemma ro_start e i tr C s a rest k cb t q : yes e -> rresting [] i tr C s -> cx_table C i = Some t -> simply_asked q t -> rest_of a rest k cb s -> rest <> [] ->
  exists s', step SResp e s = (ROk None, s') /\ rest_of a rest k cb s' /\
    rmile StStreamClose None [] None i (rstarted t) ((mk_ev HResponseStart i PlNone, SOk) :: tr) C s'.
Proof.
  intros Y [D1 D2 D3 D4 D5 D6 D7 T D8 D9 D10] Ct [A1 A2 A3 A4 A5 A6 A7 A8 A9 A10] R Nr.
  destruct T as [[T L] | (T & _)]; [|congruence]. rewrite Ct in T.
  assert (Ne : pd_is_empty (s_input s) = false).
  { unfold pd_is_empty. rewrite (rest_pd_len _ _ _ _ _ R). destruct rest; [congruence|]. apply N.eqb_neq. unfold blen. cbn. lia. }
  assert (H : handle_state SResp e s = (ROk tt, push HResponseStart i PlNone (set_s_txs (tx_set i (rstarted t) (s_txs s))
     (set_s_resp (set_d_left None (set_d_state StStreamClose (set_d_left None (set_d_clen None (s_resp s))))) s)))).
  { unfold handle_state, by_side, handle_response_state. unfold bind at 1, get_d at 1. cbn [s_dir]. rewrite D1. unfold response_idle.
    unfold bind at 1, input at 1. rewrite Ne. unfold bind at 1. rewrite (need_tx_get SResp _ _ t) by (cbn [s_idx]; rewrite D7; exact T). rewrite A10. change (prog_eqb PComplete PNotStarted) with false. cbn [when]. unfold bind at 1, ret at 1.
    unfold bind at 1, upd_d at 1, modify at 1. unfold state_response_start. unfold bind at 1.
    rewrite (need_tx_get SResp _ _ t) by (cbn; rewrite D7; exact T). rewrite A5. unfold bind at 1. unfold bind at 1. unfold mod_txd at 1.
    rewrite (mod_tx_get SResp _ _ _ t) by (cbn; rewrite D7; exact T). fold (rstarted t).
    destruct s as [rq rs oe cc ci ri pi txs cf si so tr' lg inp]. destruct rs as [d1 d2 d3 d4 d5 d6 d7 d8 d9 d10]. cbn in *. subst. ev.
    assert (T2 : tx_get i (tx_set i (rstarted t) txs) = Some (rstarted t)) by apply (tx_get_set_eq _ _ _ _ T).
    rewrite (tx_hook_yes e _ _ _ (rstarted t) Y) by exact T2. unfold push. ev. rewrite (the_tx_get SResp _ _ (rstarted t)) by exact T2.
    change (x_method (rstarted t)) with (x_method t). rewrite A1. reflexivity. }
  apply (step_next SResp) in H; [|exact (rest_no_gap _ _ _ _ _ R)|exact (rlive_not_tunnel _ D3)|discriminate].
  eexists. split; [exact H|]. split; [exact R|]. constructor; cbn; try assumption; try reflexivity.
  - apply (tx_get_set_eq _ _ _ _ T).
  - now rewrite D8.
  - intros j Hj. rewrite tx_get_set_other by congruence. now apply D10.
  - now apply stocked_set.
Qed.
Lemma simply_asked_same q t t' : simply_asked q t -> same_request t t' -> simply_asked q t'.
Proof. intros [A1 A2 A3 A4 A5 A6 A7 A8 A9 A10] (B1 & B2 & B3 & B4 & B5 & B6). injection B6 as B6 B7 B8. constructor; rewrite ?B1, ?B2, ?B3, ?B4, ?B5, ?B6; assumption. Qed.
Lemma raw_events_app i cs c : raw_events i (cs ++ [c]) = raw_events i cs ++ (if is_nil cs then [mk_ev HResponseStart i PlNone] else []) ++ reply_piece i (PlData c).
Proof. destruct cs as [|c0 cs]; [reflexivity|]. cbn [app raw_events is_nil]. cbn [flat_map]. rewrite flat_map_app. cbn [flat_map]. rewrite app_nil_r. cbn [app]. now rewrite <- ?app_assoc. Qed.
Lemma aged_resp e n T q cs t tr c s : yes e -> c <> [] -> blen (concat (cs ++ [c])) < 2 ^ 64 -> aged n T q cs t (tr_of (raw_events n cs) tr) s ->
  exists s' t', run_op (OpResp (pd_slice c)) e s = (ROk (Some SsData), s') /\ aged n T q (cs ++ [c]) t' (tr_of (raw_events n (cs ++ [c])) tr) s'.
Proof.
  intros Y Nc Lc [A1 A2 A3 A4 A5 A6 A7 A8 A9 A10 A11 A12 A13 A14 A15 A16 A17 A18 A19 A20 A21].
  set (C := mk_ctx (fun j => tx_get j (s_txs s)) (r_outside s) (length (s_txs s))).
  set (t0 := if is_nil cs then rstarted t else t).
  assert (K : exists s1, rruns e (opened SResp c s) s1 /\ rmile StStreamClose None [] None n (grow SResp (blen c) t0) (rpiece n (PlData c) ++ tr_of (if is_nil cs then [mk_ev HResponseStart n PlNone] else []) (tr_of (raw_events n cs) tr)) C s1).
  { unfold t0. destruct (is_nil cs) eqn:En.
    - destruct A7 as [A7 A7'].
      assert (Q : rresting [] n (tr_of (raw_events n cs) tr) C s) by (constructor; try assumption; try reflexivity; left; split; [reflexivity|split; [exact A21|apply Nat.le_refl]]).
      apply (ropened_resting _ _ _ _ c) in Q.
      destruct (ro_start e n _ C _ c c 0 0 t q Y Q A15 A16 (ropened_rest c s) Nc) as (s1 & H1 & R1 & M1).
      destruct (rs_open_part e C s1 c _ c 0 0 n (rstarted t) Y M1 eq_refl R1 Nc) as (s2 & H2 & M2). exists s2. split; [eapply rruns_next; eassumption|exact M2].
    - destruct A7 as [A7 A7'].
      assert (M : rmile StStreamClose None [] None n t (tr_of (raw_events n cs) tr) C s) by (constructor; try assumption; try reflexivity; split; [exact A21|apply Nat.le_refl]).
      apply (ropened_mile _ _ _ _ _ _ _ _ c) in M as [M _].
      exact (rs_open_part e C _ c _ c 0 0 n t Y M A18 (ropened_rest c s) Nc). }
  destruct K as (s1 & H1 & [M1 M2 M3 M4 M5 M6 M7 M8 M9 M10 M11 M12]).
  apply (rruns_data_call e c s s1 Nc) in H1; [|unfold bufsum; rewrite A10, A11; apply N.le_0_l|exact (rlive_live _ A8)].
  unfold r_outside, C in M10. cbn [cx_rest] in M10. injection M10 as O1 O2 O3. cbn [C cx_table] in M11.
  assert (Nn : is_nil (cs ++ [c]) = false) by (destruct cs; reflexivity).
  assert (Lt : blen (concat (cs ++ [c])) = blen (concat cs) + blen c) by (rewrite concat_app; cbn [concat]; rewrite app_nil_r; unfold blen; rewrite app_length; lia).
  assert (E0 : t_elen (x_resp t0) = blen (concat cs) /\ t_mlen (x_resp t0) = blen (concat cs) /\ t_prog (x_resp t0) = PBody /\ t_cep (x_resp t0) = CeNone /\ same_request t t0 /\ (x_status t0, x_statusn t0, x_msg t0, t_headers (x_resp t0)) = (x_status t, x_statusn t, x_msg t, t_headers (x_resp t))).
  { destruct A17 as [_ _ _ _ F5 F6 F7]. unfold t0. destruct cs as [|c0 cs]; cbn [is_nil]; repeat split; assumption. }
  destruct E0 as (E1 & E2 & E3 & E4 & E5 & E6). injection E6 as G1 G2 G3 G4.
  exists s1, (grow SResp (blen c) t0). split; [cbn [run_op]; unfold bind; rewrite H1; reflexivity|]. constructor; rewrite ?Nn, ?O2; try assumption; try congruence.
  - split; assumption.
  - rewrite M9, raw_events_app, !tr_of_app. now rewrite tr_of_rpiece.
  - apply (simply_asked_same _ _ _ A16). exact E5.
  - destruct A17 as [F1 F2 F3 F4 F5 F6 F7]. constructor; cbn; try congruence.
    + rewrite E1, Lt. unfold wadd. apply N.mod_small. rewrite Lt in Lc. exact Lc.
    + rewrite E2, Lt. unfold wadd. apply N.mod_small. rewrite Lt in Lc. exact Lc.
    + destruct cs; exact E3.
  - rewrite M11 by lia. exact A19.
  - intros j Hj Hj'. rewrite M11 by exact Hj. now apply A20.
  - apply M12.
Qed.
Lemma aged_run e n T q later : yes e -> mixed later -> forall cs t tr s, blen (concat (cs ++ replies later)) < 2 ^ 64 -> aged n T q cs t (tr_of (raw_events n cs) tr) s ->
  exists s' t', run_ops (map segment_op later) e s = (ROk (more (map segment_op later)), s') /\ aged n T q (cs ++ replies later) t' (tr_of (raw_events n (cs ++ replies later)) tr) s'.
Proof.
  intros Y Mx. induction Mx as [|[sd c] later Hc _ IH]; intros cs t tr s L A; [exists s, t; split; [reflexivity|]; cbn [replies]; now rewrite app_nil_r|]. cbn [snd] in Hc.
  destruct sd; cbn [replies map segment_op] in *.
  - destruct (aged_req e n T q cs t _ c s Hc A) as (s1 & H1 & A1). destruct (IH cs t tr s1 L A1) as (s2 & t2 & H2 & A2).
    exists s2, t2. split; [|exact A2]. cbn [run_ops more map]. unfold bind at 1. rewrite H1. unfold bind at 1. rewrite H2. reflexivity.
  - assert (Ea : cs ++ c :: replies later = (cs ++ [c]) ++ replies later) by now rewrite <- app_assoc. rewrite Ea in *.
    destruct (aged_resp e n T q cs t tr c s Y Hc) as (s1 & t1 & H1 & A1); [|exact A|].
    { eapply N.le_lt_trans; [|exact L]. rewrite (concat_app (cs ++ [c])). unfold blen. rewrite app_length. lia. }
    destruct (IH (cs ++ [c]) t1 tr s1 L A1) as (s2 & t2 & H2 & A2).
    exists s2, t2. split; [|exact A2]. cbn [run_ops more map]. unfold bind at 1. rewrite H1. unfold bind at 1. rewrite H2. reflexivity.
Qed.

(** * After a conversation *)
Lemma simple_runs e n tr T z s q later : yes e -> level n tr T z s -> good_simple q -> mixed later -> blen (simple_text q) <= c_field_limit (e_cfg e) ->
  blen (concat (replies later)) < 2 ^ 64 -> n + 1 < 2 ^ 64 -> N.of_nat z + 1 <= c_max_tx (e_cfg e) ->
  exists s' t es1, run_ops (simple_ops q later) e s = (ROk (more (simple_ops q later)), s') /\ simple_events (e_cfg e) n q es1 /\
    aged n T q (replies later) t (tr_of (es1 ++ raw_events n (replies later)) tr) s'.
Proof.
  intros Y [Lq (P1 & P2 & P3 & P4 & P5 & P6) Lf Lk] Gq Mx L1 L2 Ix Sz. set (C := mk_ctx T (n, s_resp s, false) z).
  assert (Eu : concat (sq_up q) = simple_text q) by apply Gq. assert (Nu : ~ In [] (sq_up q)) by apply Gq.
  assert (Nn : sq_up q <> []) by (intro Z; rewrite Z in Eu; destruct (sline_no_lf q Gq) as (l & El & _); rewrite El in Eu; destruct l; discriminate).
  destruct (qcalls e q n C tr Y Gq L1) with (cs := sq_up q) (s := s) as (s1 & H1 & t & es1 & Se & Sa & Rp & [I1 I2 I3 I4 I5 I6 I7 I8 I9 I10 I11]); try assumption.
  { cbn. lia. }
  { apply Lf. lia. }
  { cbn. destruct P3 as [-> | ->]; discriminate. }
  { rewrite Eu. constructor. exact Lq. }
  pose proof (keys_run (reqs (sq_up q)) e s Lk) as K1. rewrite H1 in K1. cbn [snd] in K1.
  unfold outside, C in I9. cbn [cx_rest] in I9. injection I9 as O1 O2 O3. unfold reply_part in Rp. injection Rp as R1 R2 R3 R4 R5 R6.
  assert (A : aged n T q [] t (tr_of (raw_events n []) (tr_of es1 tr)) s1).
  { constructor; rewrite ?O2; try assumption; [split; assumption| |rewrite R1; reflexivity]. constructor; rewrite ?R1; try assumption; reflexivity. }
  destruct (aged_run e n T q later Y Mx [] t (tr_of es1 tr) s1 L2 A) as (s2 & t2 & H2 & A2). cbn [app] in A2.
  exists s2, t2, es1. split; [|split; [exact Se|rewrite tr_of_app; exact A2]]. unfold simple_ops, more. erewrite run_ops_app; [|exact H1|exact H2]. unfold more. now rewrite map_app.
Qed.
(** * The end of the connection *)
Lemma close_req_old e s : d_status (s_req s) = SsClosed -> d_status (s_resp s) <> SsDataOther -> d_state (s_req s) = StIgnore09 -> d_recv (s_req s) = None ->
  exists s', data_call SReq pd_default e s = (ROk SsData, s') /\ outside s' = outside s /\ s_trace s' = s_trace s /\ s_ridx s' = s_ridx s /\ looked e (s_ridx s) (s_txs s) (s_txs s').
Proof.
  intros D1 D2 D3 D4. destruct (call_closed SReq e s D1 D2) as [n ->].
  set (g := given SReq s). assert (H : exists s1, handle_state SReq e g = (RErr SData, s1) /\ s_req s1 = set_d_consumed 0 (s_req g) /\ s_ridx s1 = s_ridx s /\ outside s1 = outside s /\ s_trace s1 = s_trace s /\ s_txs s1 = s_txs s).
  { unfold handle_state, by_side, handle_request_state. unfold bind at 1, get_d at 1. change (d_state (s_dir SReq g)) with (d_state (s_req s)). rewrite D3. unfold request_ignore_data_after_http_0_9.
    unfold bind at 1, input at 1. change (s_input g) with pd_default. change (pd_is_empty pd_default) with true. cbn [negb when]. eexists. split; [reflexivity|]. repeat split; reflexivity. }
  destruct H as (s1 & H & F1 & F2 & F3 & F4 & F5). apply (step_err SReq) in H; [|reflexivity].
  destruct (after_step_data SReq SData e s1) as (p & l & H3 & H4 & _); [now left|cbn [s_dir]; rewrite F1; exact D4|].
  rewrite H3 in H. rewrite (loop_last _ _ _ _ _ _ H). eexists. split; [reflexivity|]. cbn [s_dir s_idx] in *. rewrite F2, F5 in *. unfold outside in *. cbn. repeat split; assumption.
Qed.
Lemma close_first_old e s : live_status (d_status (s_req s)) -> rlive (d_status (s_resp s)) -> d_state (s_req s) = StIgnore09 -> d_recv (s_req s) = None ->
  exists s', (close_status SReq ;; close_status SResp ;; data_call SReq pd_default) e s = (ROk SsData, s') /\
    outside s' = (s_pidx s, set_d_status SsClosed (s_resp s), s_other_at_end s) /\ s_trace s' = s_trace s /\ looked e (s_ridx s) (s_txs s) (s_txs s').
Proof.
  intros Lq Lp D1 D2. unfold bind at 1. rewrite close_status_eval by exact (live_fine _ Lq). unfold bind at 1. rewrite close_status_eval by exact (rlive_fine _ Lp).
  destruct (close_req_old e (shut SResp (shut SReq s))) as (s' & H & O & T & _ & L); [reflexivity|discriminate|exact D1|exact D2|].
  exists s'. split; [exact H|]. split; [exact O|]. split; [exact T|exact L].
Qed.
Lemma aged_close e n T q cs t tr s : yes e -> n + 1 < 2 ^ 64 -> all_over n T -> (forall j, n < j -> T j = None) -> cs <> [] -> blen (concat cs) < 2 ^ 64 -> aged n T q cs t tr s -> exists s', run_op OpClose e s = (ROk None, s') /\ s_trace s' = tr_of (rclose_events n) tr /\
    (forall j, j < n -> tx_get j (s_txs s') = T j) /\
    (if c_auto_destroy (e_cfg e) then tx_get n (s_txs s') = None else exists t', tx_get n (s_txs s') = Some t' /\ simply_asked q t' /\ simply_answered cs PComplete t').
Proof.
  intros Y Ix Al Fr Nc Lc [A1 A2 A3 A4 A5 A6 A7 A8 A9 A10 A11 A12 A13 A14 A15 A16 A17 A18 A19 A20 A21]. set (d := c_auto_destroy (e_cfg e)).
  replace (is_nil cs) with false in A7 by (destruct cs; [congruence|reflexivity]). destruct A7 as [A7 _].
  assert (A17' := A17). destruct A17' as [F1 F2 F3 F4 F5 F6 F7].
  destruct (close_first_old e s A5 A8 A1 A2) as (s3 & H3 & Os & T3 & L3). unfold outside in Os. injection Os as W1 W2 W3. rewrite A6 in L3. rewrite A12 in W1.
  pose proof (looked_some _ _ _ _ _ _ L3 A15) as Gn.
  assert (Rc : rclosable t) by (constructor; [exact A18|rewrite F7; destruct cs; [congruence|discriminate]|exact (sa_progress _ _ A16)]).
  destruct (close_open e s3 n t Y) as (s4 & H4 & T4 & L4); try (rewrite W2; first [reflexivity|assumption]); [now rewrite W3|exact W1|exact Ix|exact Gn|exact Rc|].
  fold d in L4. set (l4 := if d then _ else _) in L4. pose proof (looked_keys _ _ _ _ L3 A21) as K3.
  assert (K2 : NoDup (map fst l4)) by (unfold l4; destruct d; [apply keys_del|]; rewrite keys_set; exact K3).
  assert (Gc : tx_get n l4 = if d then None else Some (rcompleted_tx t)) by (unfold l4; destruct d; [apply get_del; rewrite keys_set; exact K3|apply (tx_get_set_eq _ _ _ _ Gn)]).
  assert (Go : forall j, j <> n -> tx_get j l4 = tx_get j (s_txs s3)) by (intros j Hj; unfold l4; destruct d; [rewrite tx_get_del by exact Hj|]; now apply tx_get_set_other).
  assert (Sq : simply_asked q (rcompleted_tx t)) by (apply (simply_asked_same _ _ _ A16); unfold rcompleted_tx; destruct (coding_eqb _ _); repeat split; reflexivity).
  assert (Sn : simply_answered cs PComplete (rcompleted_tx t)).
  { unfold rcompleted_tx. destruct (coding_eqb _ _); constructor; cbn; try assumption; try reflexivity; rewrite ?F5, ?F6; unfold wadd; rewrite N.add_0_r; apply N.mod_small; exact Lc. }
  assert (Sl : settled (s_txs s4)).
  { apply (looked_settled _ _ _ _ L4). intros j u G. destruct (N.eq_dec j n) as [-> | Nj].
    - rewrite Gc in G. destruct d; [discriminate|]. injection G as <-. right. unfold is_complete. rewrite (sa_progress _ _ Sq), (sn_progress _ _ _ Sn). reflexivity.
    - rewrite Go in G by exact Nj. destruct (N.eq_dec j (n + 1)) as [-> | Nj'].
      + destruct L3 as [E | (_ & _ & E)]; rewrite E in G; [|rewrite tx_get_put in G; injection G as <-; now left]. destruct A19 as [Z | Z]; rewrite Z in G; [discriminate|injection G as <-; now left].
      + rewrite (looked_other _ _ _ _ j L3 Nj'), A20 in G by assumption. destruct (N.lt_ge_cases j n) as [Lj | Lj]; [right; exact (Al j u Lj G)|]. rewrite Fr in G by lia. discriminate. }
  exists s4. split; [exact (close_last e s s3 SsData s4 H3 H4 (looked_keys _ _ _ _ L4 K2) Sl)|]. split; [rewrite T4, T3, A14; reflexivity|]. split.
  - intros j Hj. rewrite (looked_other _ _ _ _ j L4), Go, (looked_other _ _ _ _ j L3), A20 by lia. reflexivity.
  - fold d. rewrite (looked_other _ _ _ _ n L4), Gc by lia. destruct d; [reflexivity|]. eauto.
Qed.

(** * Histories *)
Definition simple_run (e : env) (before : list round) (q : simple) (later : list (side * bytes)) : Prop :=
  exists s t es1 es2, history e (conversation before ++ simple_ops q later) = (ROk (all_calls before ++ more (simple_ops q later)), s) /\
    events s = es1 ++ es2 ++ raw_events (N.of_nat (length (exchanges before))) (replies later) /\
    conversation_events (e_cfg e) 0 before es1 /\ simple_events (e_cfg e) (N.of_nat (length (exchanges before))) q es2 /\
    done_with e s 0 before /\
    tx_get (N.of_nat (length (exchanges before))) (s_txs s) = Some t /\ simply_asked q t /\ simply_answered (replies later) (raw_progress (replies later)) t.
Definition simple_end (e : env) (before : list round) (q : simple) (later : list (side * bytes)) : Prop :=
  exists s es1 es2, history e (conversation before ++ simple_ops q later ++ [OpClose]) = (ROk (all_calls before ++ more (simple_ops q later) ++ [None]), s) /\
    events s = es1 ++ es2 ++ raw_events (N.of_nat (length (exchanges before))) (replies later) ++
      [mk_ev HResponseComplete (N.of_nat (length (exchanges before))) PlNone; mk_ev HTransactionComplete (N.of_nat (length (exchanges before))) PlNone] /\
    conversation_events (e_cfg e) 0 before es1 /\ simple_events (e_cfg e) (N.of_nat (length (exchanges before))) q es2 /\
    done_with e s 0 before /\
    (if c_auto_destroy (e_cfg e) then tx_get (N.of_nat (length (exchanges before))) (s_txs s) = None
     else exists t, tx_get (N.of_nat (length (exchanges before))) (s_txs s) = Some t /\ simply_asked q t /\ simply_answered (replies later) PComplete t).
Lemma simple_both_yes e before q later : yes e -> Forall good_round before -> good_simple q -> mixed later -> simple_fits e before q later ->
  simple_run e before q later /\ (replies later <> [] -> simple_end e before q later).
Proof.
  intros Y G Gq Mx ((F1 & F2 & F3) & B1 & B2 & B3 & B4). destruct (open_level e) as (s0 & H0 & L0).
  destruct (talk_runs_size e before Y 0 [] _ 0%nat s0 L0 G F1 F2 F3) as (s1 & T1 & z & es1 & H1 & Ce & L & _ & X & Z). rewrite N.add_0_l in L.
  destruct (simple_runs e _ _ _ _ _ q later Y L Gq Mx B1 B2) as (s2 & t & es2 & H2 & Se & A); [lia|rewrite Z; destruct (c_auto_destroy _); lia|].
  set (n := N.of_nat (length (exchanges before))) in *.
  assert (Lk : forall k m r, nth_error (exchanges before) k = Some (m, r) -> N.of_nat k < n) by (intros k m r Hk; assert (k < length (exchanges before))%nat by (apply nth_error_Some; congruence); unfold n; lia).
  assert (H12 : history e (conversation before ++ simple_ops q later) = (ROk (all_calls before ++ more (simple_ops q later)), s2)).
  { unfold history, conversation, all_calls. cbn [run_ops app map]. unfold bind at 1. rewrite H0. unfold bind at 1. erewrite run_ops_app; [|exact H1|exact H2]. reflexivity. }
  split.
  - exists s2, t, es1, es2. split; [exact H12|]. split; [apply events_tr_of; rewrite (ag_trace _ _ _ _ _ _ _ A), <- tr_of_app; reflexivity|]. split; [exact Ce|]. split; [exact Se|].
    split; [|split; [apply A|split; apply A]]. intros k m r Hk. pose proof (Lk _ _ _ Hk). rewrite N.add_0_l, (ag_others _ _ _ _ _ _ _ A) by lia. specialize (X k (m, r) Hk). rewrite N.add_0_l in X. exact X.
  - intro Nr. assert (X' : forall k x, nth_error (exchanges before) k = Some x -> over (c_auto_destroy (e_cfg e)) T1 (N.of_nat k) x) by (intros k x Hk; specialize (X k x Hk); now rewrite N.add_0_l in X).
    destruct (aged_close e n T1 q _ t _ s2 Y B3 (over_complete _ _ _ X') (lv_free _ _ _ _ _ L) Nr B2 A) as (s3 & H3 & Tr & Ot & Dn).
    exists s3, es1, es2. split; [|split; [|split; [exact Ce|split; [exact Se|split; [|exact Dn]]]]].
    + rewrite app_assoc. rewrite (app_assoc (all_calls before)). unfold history in *. eapply run_ops_app; [exact H12|]. cbn [run_ops]. unfold bind. rewrite H3. reflexivity.
    + apply events_tr_of. rewrite Tr, <- !tr_of_app. f_equal. now rewrite <- !app_assoc.
    + intros k m r Hk. pose proof (Lk _ _ _ Hk). rewrite N.add_0_l, Ot by lia. exact (X' k (m, r) Hk).
Qed.
Lemma simple_events_mute e i q es : simple_events (e_cfg (mute e)) i q es -> simple_events (e_cfg e) i q es. Proof. exact (fun H => H). Qed.
Lemma simple_parsed e before q later : accepting e -> Forall good_round before -> good_simple q -> mixed later -> simple_fits e before q later -> simple_run e before q later.
Proof.
  intros A G Gq Mx F. destruct (simple_both_yes (mute e) before q later (yes_mute e) G Gq Mx F) as [(s & t & es1 & es2 & H & Ee & Ce & Se & D & Ht & Sa & Sn) _].
  match type of H with history _ ?l = _ => destruct (history_mute e l A) as [H1 H2] end. rewrite H in H1, H2. cbn [fst snd] in H1, H2. apply similar_txs in H2 as [H2 H3].
  match type of H with history _ ?l = _ => exists (snd (history e l)) end. exists t, es1, es2. split; [rewrite <- H1; apply surjective_pairing|]. rewrite H3. split; [exact Ee|]. split; [now apply conversation_events_mute|]. split; [exact Se|].
  split; [eapply done_mute; [exact H2|exact D]|]. rewrite H2. auto.
Qed.
Lemma simple_closed e before q later : accepting e -> Forall good_round before -> good_simple q -> mixed later -> simple_fits e before q later -> replies later <> [] -> simple_end e before q later.
Proof.
  intros A G Gq Mx F Nr. destruct (simple_both_yes (mute e) before q later (yes_mute e) G Gq Mx F) as [_ K]. destruct (K Nr) as (s & es1 & es2 & H & Ee & Ce & Se & D & Dn).
  match type of H with history _ ?l = _ => destruct (history_mute e l A) as [H1 H2] end. rewrite H in H1, H2. cbn [fst snd] in H1, H2. apply similar_txs in H2 as [H2 H3].
  match type of H with history _ ?l = _ => exists (snd (history e l)) end. exists es1, es2. split; [rewrite <- H1; apply surjective_pairing|]. rewrite H3. split; [exact Ee|]. split; [now apply conversation_events_mute|]. split; [exact Se|].
  split; [eapply done_mute; [exact H2|exact D]|]. rewrite H2. exact Dn.
Qed.
