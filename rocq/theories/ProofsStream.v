(** Streams of well-formed requests, cut in any way: from call to call. *)
From Verif Require Import Base Spec SpecTx SpecMsg ModelUtil ModelHeaders ModelState ModelTx ModelConn SpecConn ProofsBase ProofsParsers ProofsHeaders ProofsTx ProofsConn ProofsCore ProofsLoop ProofsHist ProofsEval ProofsBody ProofsHead.

(** * Runs of the request parser's loop that end by asking for data *)
Definition runs (e : env) (s s' : st) : Prop := exists n, loops SReq e n s SsData s'.
Lemma runs_next e s s1 s' : step SReq e s = (ROk None, s1) -> runs e s1 s' -> runs e s s'.
Proof. intros H [n R]. exists (S n). eapply LoopsMore; eassumption. Qed.
Lemma runs_last e s s' : step SReq e s = (ROk (Some SsData), s') -> runs e s s'.
Proof. intros H. exists 1%nat. now apply LoopsLast. Qed.

(** * Where the parser is *)
Definition live_status (x : sstate) : Prop := x = SsData \/ x = SsOpen \/ x = SsDataOther.
Lemma live_not_tunnel x : live_status x -> x <> SsTunnel. Proof. intros [-> | [-> | ->]]; discriminate. Qed.
Lemma live_not_closed x : live_status x -> x <> SsClosed. Proof. intros [-> | [-> | ->]]; discriminate. Qed.
Lemma live_closed_eqb x : live_status x -> sstate_eqb x SsClosed = false. Proof. intros [-> | [-> | ->]]; reflexivity. Qed.
(** What lies outside the request being read: the other transactions, the response side, and a bound on the size of the table. *)
Record ctx := mk_ctx { cx_table : N -> option tx; cx_rest : N * dir * bool; cx_size : nat }.
Definition next_ctx (i : N) (t : tx) (C : ctx) : ctx := mk_ctx (fun j => if j =? i then Some t else cx_table C j) (cx_rest C) (S (cx_size C)).
(** The request parser, reading request [i], whose transaction is [t], before a step in state [x]. *)
Record mile (x : pstate) (rv : option hook) (buf : bytes) (hdr : option bytes) (i : N) (t : tx) (tr : list (event * status)) (C : ctx) (s : st) : Prop := {
  ml_state : d_state (s_req s) = x; ml_prev : d_prev (s_req s) = x; ml_live : live_status (d_status (s_req s));
  ml_recv : d_recv (s_req s) = rv; ml_buf : d_buf (s_req s) = buf; ml_header : d_header (s_req s) = hdr;
  ml_idx : s_ridx s = i; ml_tx : tx_get i (s_txs s) = Some t; ml_trace : s_trace s = tr; ml_outside : outside s = cx_rest C;
  ml_others : forall j, j <> i -> tx_get j (s_txs s) = cx_table C j;
  ml_size : (length (s_txs s) <= S (cx_size C))%nat }.
(** The request parser between requests. *)
Record resting (buf : bytes) (i : N) (tr : list (event * status)) (C : ctx) (s : st) : Prop := {
  rs_state : d_state (s_req s) = StIdle; rs_prev : d_prev (s_req s) = StIdle \/ d_prev (s_req s) = StNone; rs_live : live_status (d_status (s_req s));
  rs_recv : d_recv (s_req s) = None; rs_buf : d_buf (s_req s) = buf; rs_header : d_header (s_req s) = None;
  rs_idx : s_ridx s = i;
  rs_tx : (tx_get i (s_txs s) = Some tx_new /\ (length (s_txs s) <= S (cx_size C))%nat) \/ (tx_get i (s_txs s) = None /\ (length (s_txs s) <= cx_size C)%nat);
  rs_trace : s_trace s = tr; rs_outside : outside s = cx_rest C;
  rs_others : forall j, j <> i -> tx_get j (s_txs s) = cx_table C j }.
Lemma rest_no_gap a c k cb s : rest_of a c k cb s -> pd_is_gap (s_input s) = false.
Proof. intros (-> & _). reflexivity. Qed.
Lemma rest_slice a c k cb s : rest_of a c k cb s -> pd_as_slice (s_input s) = c.
Proof. intros (-> & Hk & Hr). now rewrite pd_slice_at. Qed.
Lemma ph_start e i tr C s a rest k cb p : yes e -> resting p i tr C s -> N.of_nat (cx_size C) < c_max_tx (e_cfg e) -> rest_of a rest k cb s -> rest <> [] ->
  exists s', step SReq e s = (ROk None, s') /\ rest_of a rest k cb s' /\
    mile StLine None p None i start_tx ((mk_ev HRequestStart i PlNone, SOk) :: tr) C s'.
Proof.
  intros Y [D1 D2 D3 D4 D5 D6 D7 T D8 D9 D10] M R Nr. rewrite <- D7 in T.
  assert (Ne : pd_is_empty (s_input s) = false).
  { unfold pd_is_empty. rewrite (rest_pd_len _ _ _ _ _ R). destruct rest; [congruence|]. apply N.eqb_neq. unfold blen. cbn. lia. }
  pose proof (idle_eval e s Y D1 Ne) as H1. specialize (H1 ltac:(destruct T as [[T1 T2] | [T1 T2]]; [now left|right; split; [exact T1|lia]])).
  apply (step_next SReq) in H1; [|exact (rest_no_gap _ _ _ _ _ R)|exact (live_not_tunnel _ D3)|discriminate].
  eexists. split; [exact H1|]. split; [exact R|]. constructor; cbn; try assumption; try reflexivity.
  - destruct T as [[T _] | [T _]]; rewrite T; rewrite D7 in *; [apply (tx_get_set_eq _ _ _ _ T)|apply tx_get_put].
  - congruence.
  - intros j Hj. rewrite <- D10 by exact Hj. destruct T as [[T _] | [T _]]; rewrite T; [apply tx_get_set_other|apply tx_get_put_other]; congruence.
  - destruct T as [[T L] | [T L]]; rewrite T; [rewrite length_set; exact L|]. etransitivity; [apply length_put|lia].
Qed.
(** All of the chunk was read and there is no new request. *)
Lemma ph_rest e i tr C s a k cb : yes e -> resting [] i tr C s -> rest_of a [] k cb s -> exists s', runs e s s' /\ resting [] i tr C s'.
Proof.
  intros Y [D1 D2 D3 D4 D5 D6 D7 T D8 D9 D10] R.
  assert (H : handle_state SReq e s = (RErr SData, s)).
  { unfold handle_state, by_side, handle_request_state, request_idle. unfold bind at 1, get_d at 1. cbn [s_dir]. rewrite D1. unfold bind at 1, input at 1. unfold bind at 1, get_d at 1.
    unfold pd_is_empty. rewrite (rest_pd_len _ _ _ _ _ R). cbn [s_dir]. rewrite (live_closed_eqb _ D3). reflexivity. }
  apply (step_err SReq) in H; [|exact (rest_no_gap _ _ _ _ _ R)].
  destruct (after_step_data SReq SData e s) as (p & l & H3 & H4 & _); [now left|exact D4|]. rewrite H3 in H. clear H3. cbn [s_idx] in H4. rewrite D7 in H4.
  eexists. split; [apply runs_last; exact H|]. constructor; cbn; try assumption; try reflexivity; try (now left).
  - destruct H4 as [-> | (H4 & _ & ->)]; [exact T|]. left. split; [apply tx_get_put|]. pose proof (length_put i tx_new (s_txs s)). destruct T as [[T _] | [_ T]]; [congruence|lia].
  - intros j Hj. rewrite (looked_other _ _ _ _ j H4) by exact Hj. now apply D10.
Qed.
(** ** The request line *)
Lemma absent_lf_eval e s a c k cb : rest_of a c k cb s -> d_header (s_req s) = None -> blen (d_buf (s_req s)) + blen c <= c_field_limit (e_cfg e) ->
  absent_lf SReq e s = (RErr SDataBuffer, set_s_input (mk_pdata (Some a) None (k + blen c) cb) (set_s_req (set_d_consumed (k + blen c) (set_d_buf (d_buf (s_req s) ++ c) (s_req s))) s)).
Proof.
  intros R H L. unfold absent_lf. unfold bind at 1, input at 1. rewrite (rest_pd_len _ _ _ _ _ R), (rest_slice _ _ _ _ _ R). destruct R as (I & _ & _).
  assert (Ck : check_buffer_limit SReq (blen c) e s = (ROk tt, s)).
  { unfold check_buffer_limit. destruct (blen c =? 0); [reflexivity|]. unfold bind at 1, get_d at 1. unfold bind at 1, ask at 1. cbn [s_dir]. rewrite H.
    destruct (_ <? _) eqn:E; [lia|]. reflexivity. }
  unfold bind at 1. rewrite Ck. destruct s as [rq rs oe cc ci ri pi txs cf si so tr lg inp]. destruct rq as [d1 d2 d3 d4 d5 d6 d7 d8 d9 d10]. cbn in *. subst. reflexivity.
Qed.
(** A pause in a state without receiver. *)
Lemma pause_plain e x y i t tr C s s1 buf buf' hdr : pausing x -> mile y None buf hdr i t tr C s -> pd_is_gap (s_input s) = false -> handle_state SReq e s = (RErr x, s1) ->
  mile y None buf' hdr i t tr C s1 -> exists s', runs e s s' /\ mile y None buf' hdr i t tr C s' /\ d_left (s_req s') = d_left (s_req s1) /\ d_chunk (s_req s') = d_chunk (s_req s1).
Proof.
  intros X _ G H [M1 M2 M3 M4 M5 M6 M7 M8 M9 M10 M11 M12]. apply (step_err SReq) in H; [|exact G].
  destruct (after_step_data SReq x e s1) as (p & l & H3 & H4 & _); [exact X|exact M4|]. rewrite H3 in H. clear H3. cbn [s_idx] in H4. rewrite M7 in H4.
  destruct H4 as [-> | (H4 & _)]; [|congruence].
  eexists. split; [apply runs_last; exact H|]. split; [constructor; cbn; try assumption; try reflexivity; now left|split; reflexivity].
Qed.
Lemma ph_line_part e C s a tr p q k cb i t : mile StLine None p None i t tr C s -> rest_of a q k cb s -> ~ In 10 q -> blen p + blen q <= c_field_limit (e_cfg e) ->
  exists s', runs e s s' /\ mile StLine None (p ++ q) None i t tr C s'.
Proof.
  intros M R Nl L. assert (M' := M). destruct M as [M1 M2 M3 M4 M5 M6 M7 M8 M9 M10 M11 M12].
  assert (H : handle_state SReq e s = absent_lf SReq e s).
  { unfold handle_state, by_side, handle_request_state. unfold bind at 1, get_d at 1. cbn [s_dir]. rewrite M1. unfold request_line. unfold bind at 1, input at 1. unfold bind at 1, get_d at 1.
    rewrite (rest_slice _ _ _ _ _ R). replace (take_till_lf q) with (@PInc bytes) by (symmetry; now apply take_till_lf_spec). cbn [s_dir]. now rewrite (live_closed_eqb _ M3). }
  rewrite (absent_lf_eval e s a q k cb R M6) in H by (rewrite M5; exact L).
  eapply pause_plain in H; [|right; reflexivity|exact M'|exact (rest_no_gap _ _ _ _ _ R)|].
  - destruct H as (s' & H1 & H2 & _). exists s'. split; [exact H1|exact H2].
  - constructor; cbn; try assumption; try reflexivity. now rewrite M5.
Qed.
Lemma ph_line_any e C s a r t1 tr p q tail k cb i t : yes e -> fair_request r -> mile StLine None p None i t tr C s -> parse_request_uri (e_ip6 e) (c_dcfg (e_cfg e)) (with_line r t) = Some t1 ->
  rest_of a (q ++ tail) k cb s -> p ++ q = request_line_text r -> q <> [] -> blen (request_line_text r) <= c_field_limit (e_cfg e) ->
  exists s', step SReq e s = (ROk None, s') /\ rest_of a tail (k + blen q) cb s' /\ 
    mile StProtocol None [] None i (stored e t1) ((mk_ev HRequestLine i PlNone, SOk) :: (mk_ev HRequestUriNormalize i PlNone, SOk) :: param_events i (told_params (e_cfg e) t1) ++ tr) C s'.
Proof.
  intros Y G [M1 M2 M3 M4 M5 M6 M7 M8 M9 M10 M11 M12] P R E Nq Lim. rewrite <- M7 in M8.
  destruct (line_any e s t t1 r a p q tail k cb Y G M1 M5 M6 R E Nq Lim M8 P) as (l & H).
  apply (step_next SReq) in H; [|exact (rest_no_gap _ _ _ _ _ R)|exact (live_not_tunnel _ M3)|discriminate].
  eexists. split; [exact H|]. destruct (rest_skip _ _ _ _ _ _ R) as [L1 L2]. split; [split; [reflexivity|split; assumption]|].
  rewrite M7, M9. constructor; cbn; try assumption; try reflexivity.
  - rewrite M7 in *. apply (tx_get_set_eq _ _ _ _ M8).
  - intros j Hj. rewrite tx_get_set_other by congruence. now apply M11.
  - now rewrite length_set.
Qed.
Lemma ph_line e C s a r tr p q tail k cb i t : yes e -> good_request r -> mile StLine None p None i t tr C s -> x_parsed t = None ->
  rest_of a (q ++ tail) k cb s -> p ++ q = request_line_text r -> q <> [] -> blen (request_line_text r) <= c_field_limit (e_cfg e) ->
  exists s' t' ps, step SReq e s = (ROk None, s') /\ rest_of a tail (k + blen q) cb s' /\ (keeps (with_line r t) t' /\ addressed t (rq_target r) t' /\ ps = sent_params (e_cfg e) (rq_target r)) /\
    mile StProtocol None [] None i t' ((mk_ev HRequestLine i PlNone, SOk) :: (mk_ev HRequestUriNormalize i PlNone, SOk) :: param_events i ps ++ tr) C s'.
Proof.
  intros Y G [M1 M2 M3 M4 M5 M6 M7 M8 M9 M10 M11 M12] P R E Nq Lim. rewrite <- M7 in M8.
  destruct (line_eval e s t r a p q tail k cb Y G M1 M5 M6 R E Nq Lim M8 P) as (t' & ps & l & K & H).
  apply (step_next SReq) in H; [|exact (rest_no_gap _ _ _ _ _ R)|exact (live_not_tunnel _ M3)|discriminate].
  eexists _, t', ps. split; [exact H|]. destruct (rest_skip _ _ _ _ _ _ R) as [L1 L2]. split; [split; [reflexivity|split; assumption]|]. split; [exact K|].
  rewrite M7, M9. constructor; cbn; try assumption; try reflexivity.
  - rewrite M7 in *. apply (tx_get_set_eq _ _ _ _ M8).
  - intros j Hj. rewrite tx_get_set_other by congruence. now apply M11.
  - now rewrite length_set.
Qed.
Lemma ph_protocol e C s a rest tr k cb i t : mile StProtocol None [] None i t tr C s -> x_is09 t = false -> rest_of a rest k cb s ->
  exists s', step SReq e s = (ROk None, s') /\ rest_of a rest k k s' /\
    mile StHeaders (Some HRequestHeaderData) [] None i (upd_dir SReq (set_t_prog PHeaders) t) tr C s'.
Proof.
  intros [M1 M2 M3 M4 M5 M6 M7 M8 M9 M10 M11 M12] I9 R. rewrite <- M7 in M8.
  eexists. split; [apply (protocol_step e s t a rest k cb M8 M1 M2 I9 (live_not_tunnel _ M3) R)|]. destruct R as (I & L & E). split; [split; [reflexivity|split; assumption]|].
  rewrite M7 in *. constructor; cbn; try assumption; try reflexivity.
  - apply (tx_get_set_eq _ _ _ _ M8).
  - intros j Hj. rewrite tx_get_set_other by congruence. now apply M11.
  - now rewrite length_set.
Qed.
(** ** The header block *)
(** What the headers make of a transaction. *)
Definition head_done (e : env) (t t' : tx) : Prop :=
  exists b lg t2, process_request_headers (c_parse_auth (e_cfg e)) (e_ip6 e) (e_b64 e) (if b : bool then add_flag MULTI_PACKET_HEAD t else t) = (true, t2, lg) /\
    t' = with_decompressors SReq (e_cfg e) t2.
Definition head_ok (e : env) (t : tx) : Prop :=
  forall b : bool, fst (fst (process_request_headers (c_parse_auth (e_cfg e)) (e_ip6 e) (e_b64 e) (if b then add_flag MULTI_PACKET_HEAD t else t))) = true.
Lemma between_app a i p q : skipn (N.to_nat i) a = p ++ q -> between a i (i + blen p) = p.
Proof.
  intro E. unfold between. rewrite E. replace (N.to_nat (i + blen p - i)) with (length p) by (unfold blen; lia).
  rewrite firstn_app, firstn_all, Nat.sub_diag. cbn. apply app_nil_r.
Qed.
Definition gains (t t' : tx) : Prop :=
  (exists r h, x_req t' = set_t_reps r (set_t_headers h (x_req t))) /\
  reply_part t' = reply_part t /\ x_method t' = x_method t /\ x_methodn t' = x_methodn t /\ x_uri t' = x_uri t /\ x_is09 t' = x_is09 t /\ x_where t' = x_where t /\ x_parsed t' = x_parsed t.
Lemma add_header_gains h t : gains t (fst (add_header SReq h t)).
Proof.
  unfold add_header. destruct (header_flags SReq h (x_flags t)) as [[xf hf] lg].
  destruct (merge_header SReq _ _) as [d lg2] eqn:E. cbn [fst]. split; [|repeat split; reflexivity]. cbn.
  unfold merge_header in E. destruct (headers_get_nocase _ _) as [ex|].
  - destruct (_ && _).
    + injection E as <- <-. exists (t_reps (x_req t)), (t_headers (x_req t)). cbn. destruct (x_req t); reflexivity.
    + injection E as <- <-. eexists _, _. reflexivity.
  - injection E as <- <-. exists (t_reps (x_req t)), (t_headers (x_req t) ++ [mk_header (hf_bytes (ph_name h)) (hf_bytes (ph_value h)) hf]). cbn. destruct (x_req t); reflexivity.
Qed.
Lemma add_headers_gains hs : forall t, gains t (add_headers SReq hs t).
Proof.
  induction hs as [|h hs IH]; intro t.
  - split; [|repeat split; reflexivity]. exists (t_reps (x_req t)), (t_headers (x_req t)). cbn. destruct (x_req t); reflexivity.
  - cbn [add_headers fold_left]. destruct (add_header_gains h t) as ((r1 & h1 & E1) & A1 & A2 & A3 & A4 & A5 & A6 & A7). destruct (IH (fst (add_header SReq h t))) as ((r2 & h2 & E2) & B1 & B2 & B3 & B4 & B5 & B6 & B7).
    unfold add_headers in *. split; [|repeat split; congruence]. exists r2, h2. rewrite E2, E1. reflexivity.
Qed.
Definition opt_text (p : option bytes) : bytes := match p with Some b => b | None => [] end.
Lemma ph_headers_done e C s0 s a t1 tr q tail k i : yes e -> mile StHeaders (Some HRequestHeaderData) [] None i t1 tr C s ->
  pd_is_gap (s_input s0) = false ->
  t_prog (x_req t1) = PHeaders -> rest_of a tail (k + blen q) k s -> skipn (N.to_nat k) a = q ++ tail ->
  head_ok e t1 -> handle_request_state e s0 = state_request_headers e s ->
  exists s' t', step SReq e s0 = (ROk None, s') /\ rest_of a tail (k + blen q) (k + blen q) s' /\ head_done e t1 t' /\
    mile StConnectCheck None [] None i t' ((mk_ev HRequestHeaders i PlNone, SOk) :: (mk_ev HRequestHeaderData i (PlData q), SOk) :: tr) C s'.
Proof.
  intros Y [M1 M2 M3 M4 M5 M6 M7 M8 M9 M10 M11 M12] G0 Pg R Sk Ok H1. rewrite <- M7 in M8.
  specialize (Ok (negb (s_chunk_count s =? s_chunk_idx s))).
  destruct (process_request_headers (c_parse_auth (e_cfg e)) (e_ip6 e) (e_b64 e) (if negb (s_chunk_count s =? s_chunk_idx s) then add_flag MULTI_PACKET_HEAD t1 else t1)) as [[ok t2] lg] eqn:Pr.
  cbn [fst] in Ok. subst ok. destruct R as (I & L1 & L2).
  destruct (headers_done e s t1 a (k + blen q) k t2 lg Y M8) as [l2 H2]; try assumption; try reflexivity.
  { lia. }
  rewrite H2 in H1. apply (step_next SReq) in H1; [|exact G0|exact (live_not_tunnel _ M3)|discriminate].
  eexists _, _. split; [exact H1|]. split; [split; [reflexivity|split; assumption]|]. split; [exists (negb (s_chunk_count s =? s_chunk_idx s)), lg, t2; split; [exact Pr|reflexivity]|].
  replace (between a k (k + blen q)) with q by (symmetry; now apply (between_app a k q tail)).
  rewrite M7 in *. cbn. rewrite M9. constructor; cbn; try assumption; try reflexivity.
  - apply (tx_get_set_eq _ _ _ _ M8).
  - intros j Hj. rewrite tx_get_set_other by congruence. now apply M11.
  - now rewrite length_set.
Qed.
Lemma ph_headers e C s a ls tr p q tail k i t : yes e -> Forall good_hline ls -> ls <> [] -> mile StHeaders (Some HRequestHeaderData) [] p i t tr C s ->
  t_hpc (x_req t) = false -> t_prog (x_req t) = PHeaders -> rest_of a (q ++ tail) k k s -> q <> [] -> opt_text p ++ q = block_text ls ++ [13; 10] ->
  head_ok e (add_headers SReq (map ph_of ls) t) ->
  exists s' t', step SReq e s = (ROk None, s') /\ rest_of a tail (k + blen q) (k + blen q) s' /\ head_done e (add_headers SReq (map ph_of ls) t) t' /\
    mile StConnectCheck None [] None i t' ((mk_ev HRequestHeaders i PlNone, SOk) :: (mk_ev HRequestHeaderData i (PlData q), SOk) :: tr) C s'.
Proof.
  intros Y G Nl [M1 M2 M3 M4 M5 M6 M7 M8 M9 M10 M11 M12] Hc Pg R Nq E Ok. rewrite <- M7 in M8.
  destruct (block_eval e s t a ls p q tail k k G Nl M8 Hc M1 (live_not_closed _ M3) M6 R Nq E) as [l H1].
  destruct (rest_skip _ _ _ _ _ _ R) as [L1 L2]. pose proof R as (_ & _ & Sk). rewrite M7 in *.
  eapply ph_headers_done in H1; [exact H1|exact Y| |exact (rest_no_gap _ _ _ _ _ R)| | |exact Sk|exact Ok].
  - constructor; cbn; try assumption; try reflexivity.
    + apply (tx_get_set_eq _ _ _ _ M8).
    + intros j Hj. rewrite tx_get_set_other by congruence. now apply M11.
    + now rewrite length_set.
  - destruct (add_headers_gains (map ph_of ls) t) as ((rr & hh & Eq) & _). rewrite Eq. exact Pg.
  - split; [reflexivity|split; assumption].
Qed.
(** Part of the header block: [ls] are complete, [q'] is left pending. *)
Definition left_over (ls : list hline) (q : bytes) : Prop := pending SReq q \/ (ls = [] /\ q = []).
Lemma left_over_partial ls q : Forall good_hline ls -> left_over ls q ->
  h_headers SReq false (block_text ls ++ q) = Some (match ls with [] => PInc | _ => POk q (map ph_of ls, false) end).
Proof. intros G [P | [-> ->]]; [now apply h_headers_partial|]. reflexivity. Qed.
Lemma left_over_no_eol ls q : left_over ls q -> starts_with crlf q || starts_with [10] q = false.
Proof.
  intros [P | [-> ->]]; [|reflexivity]. destruct P as [l q Hl Hq Ne | _]; [|reflexivity].
  assert (exists x m, q = x :: m /\ token_byte x) as (x & m & -> & Hx).
  { destruct Hl as (H1 & H2 & _). unfold line_prefix, hl_text in Hq. destruct (hl_name l) as [|x n]; [easy|]. inversion H2; subst.
    destruct q as [|y r]; [easy|]. exists y, r. split; [reflexivity|]. destruct Hq as [(q2 & E) | (_ & E)]; cbn in E; injection E as E _; now subst. }
  apply token_not in Hx. unfold crlf, starts_with. cbn [strip_prefix]. destruct (13 =? x) eqn:E1; [lia|]. destruct (10 =? x) eqn:E2; [lia|]. reflexivity.
Qed.
Lemma ph_headers_part e C s a ls tr p q q' k i t h : yes e -> Forall good_hline ls -> mile StHeaders (Some h) [] p i t tr C s ->
  t_hpc (x_req t) = false -> rest_of a q k k s -> opt_text p ++ q = block_text ls ++ q' -> left_over ls q' -> blen q' <= c_field_limit (e_cfg e) ->
  exists s', runs e s s' /\ mile StHeaders (Some h) [] (Some q') i (add_headers SReq (map ph_of ls) t) ((mk_ev h i (PlData q), SOk) :: tr) C s'.
Proof.
  intros Y G [M1 M2 M3 M4 M5 M6 M7 M8 M9 M10 M11 M12] Hc R E Lo Lim. rewrite <- M7 in M8.
  assert (X : exists l, handle_state SReq e s = (RErr SDataBuffer, set_s_logs l (set_s_input (mk_pdata (Some a) None (k + blen q) k)
     (set_s_txs (tx_set (s_ridx s) (add_headers SReq (map ph_of ls) t) (s_txs s)) (set_s_req (set_d_header (Some q') (set_d_consumed (k + blen q) (s_req s))) s))))).
  { unfold handle_state, by_side, handle_request_state. unfold bind at 1, get_d at 1. cbn [s_dir]. rewrite M1.
    unfold request_headers. unfold bind at 1, slice at 1. unfold bind at 1, get_d at 1. cbn [s_dir]. rewrite (rest_slice _ _ _ _ _ R), (live_closed_eqb _ M3), M6.
    replace (match p with Some h => h ++ q | None => q end) with (block_text ls ++ q') by (rewrite <- E; destruct p; reflexivity).
    unfold bind at 1, upd_d at 1, modify at 1. unfold bind at 1, parse_headers. unfold bind at 1. rewrite (need_tx_get SReq _ _ t) by (destruct s; exact M8). cbn [x_dir]. rewrite Hc.
    rewrite left_over_partial by assumption. pose proof (left_over_no_eol _ _ Lo) as Ne. destruct R as (I & L1 & L2). clear E.
    assert (Ck : forall z, d_buf (s_req z) = [] -> d_header (s_req z) = None -> check_buffer_limit SReq (blen q') e z = (ROk tt, z)).
    { intros z Hb Hh. unfold check_buffer_limit. destruct (_ =? 0); [reflexivity|]. unfold bind at 1, get_d at 1. unfold bind at 1, ask at 1. cbn [s_dir]. rewrite Hb, Hh. change (blen []) with 0.
      destruct (_ <? _) eqn:Ec; [lia|]. reflexivity. }
    destruct ls as [|l0 ls].
    - unfold ret at 1. cbn [block_text map concat app]. cbn [orb]. rewrite Ne, Bool.andb_false_r. unfold add_headers. cbn [map fold_left].
      exists (s_logs s). destruct s as [rq rs oe cc ci ri pi txs cf si so tr' lg inp]. destruct rq as [d1 d2 d3 d4 d5 d6 d7 d8 d9 d10]. cbn in *. subst.
      ev. rewrite Ck by reflexivity. ev. rewrite tx_set_same by exact M8. reflexivity.
    - unfold bind at 1. match goal with |- context [for_each _ _ e ?z] => destruct (add_headers_eval SReq (map ph_of (l0 :: ls)) e z t) as [l El]; [destruct s; exact M8|]; rewrite El; clear El end.
      unfold ret at 1. cbn [orb]. rewrite Ne, Bool.andb_false_r. exists l.
      destruct s as [rq rs oe cc ci ri pi txs cf si so tr' lg inp]. destruct rq as [d1 d2 d3 d4 d5 d6 d7 d8 d9 d10]. cbn in *. subst. ev. rewrite Ck by reflexivity. ev. reflexivity. }
  destruct X as [l H]. apply (step_err SReq) in H; [|exact (rest_no_gap _ _ _ _ _ R)]. pose proof (rest_len _ _ _ _ _ R) as Ll. destruct R as (I & L1 & L2).
  erewrite (after_step_recv SReq) in H; [|exact Y|now right|cbn; exact M4|cbn; apply (tx_get_set_eq _ _ _ _ M8)|reflexivity|lia|lia].
  eexists. split; [apply runs_last; exact H|]. fold (between a k (k + blen q)). rewrite (between_app a k q []) by (rewrite app_nil_r; exact L2).
  rewrite M7 in *. constructor; cbn; try assumption; try reflexivity.
  - now left.
  - apply (tx_get_set_eq _ _ _ _ M8).
  - rewrite ?M7, M9; reflexivity.
  - intros j Hj. rewrite tx_get_set_other by congruence. now apply M11.
  - now rewrite length_set.
Qed.
(** A block without lines. *)
Lemma none_eval e C s a tr p tail k cb i t h : mile StHeaders (Some h) [] p i t tr C s -> opt_text p = [] -> t_hpc (x_req t) = false ->
  rest_of a ([13; 10] ++ tail) k cb s -> match tail with x :: _ => x <> 32 | [] => True end ->
  handle_request_state e s = state_request_headers e (set_s_input (mk_pdata (Some a) None (k + 2) cb) (set_s_req (set_d_consumed (k + 2) (set_d_header None (s_req s))) s)).
Proof.
  intros [M1 M2 M3 M4 M5 M6 M7 M8 M9 M10 M11 M12] Ep Hc R Ht. rewrite <- M7 in M8.
  unfold handle_request_state. unfold bind at 1, get_d at 1. cbn [s_dir]. rewrite M1.
  unfold request_headers. unfold bind at 1, slice at 1. unfold bind at 1, get_d at 1. cbn [s_dir]. rewrite (rest_slice _ _ _ _ _ R), (live_closed_eqb _ M3), M6.
  replace (match p with Some h => h ++ [13; 10] ++ tail | None => [13; 10] ++ tail end) with ([13; 10] ++ tail) by (destruct p as [b|]; [cbn in Ep; subst b|]; reflexivity).
  unfold bind at 1, upd_d at 1, modify at 1. unfold bind at 1, parse_headers. unfold bind at 1. rewrite (need_tx_get SReq _ _ t) by (destruct s; exact M8). cbn [x_dir]. rewrite Hc.
  assert (Hh : h_headers SReq false ([13; 10] ++ tail) = Some PErr).
  { unfold h_headers, h_header, header_with_colon. replace ((plet n := h_name in plet _s := separator_regular in pret n) ([13; 10] ++ tail)) with (@PErr hfield); [reflexivity|].
    unfold pbind at 1, h_name. destruct tail as [|x tail]; [reflexivity|]. cbn [app name_end]. change (13 =? 58) with false. change (10 =? 58) with false. change (13 =? 10) with false. change (10 =? 10) with true. cbv iota.
    destruct (x =? 32) eqn:E32; [lia|]. reflexivity. }
  rewrite Hh.
  unfold ret at 1. cbn [orb]. rewrite N.eqb_refl. change (starts_with crlf ([13; 10] ++ tail)) with true. cbn [orb andb]. rewrite N.ltb_irrefl.
  replace (N.min (blen ([13; 10] ++ tail)) 2) with 2 by (unfold blen; cbn [app length]; lia).
  destruct R as (I & _ & _). destruct s as [rq rs oe cc ci ri pi txs cf si so tr' lg inp]. destruct rq as [d1 d2 d3 d4 d5 d6 d7 d8 d9 d10]. cbn in *. subst. reflexivity.
Qed.
Lemma ph_headers_none e C s a tr p tail k i t : yes e -> mile StHeaders (Some HRequestHeaderData) [] p i t tr C s -> opt_text p = [] ->
  t_hpc (x_req t) = false -> t_prog (x_req t) = PHeaders -> rest_of a ([13; 10] ++ tail) k k s -> match tail with x :: _ => x <> 32 | [] => True end -> head_ok e t ->
  exists s' t', step SReq e s = (ROk None, s') /\ rest_of a tail (k + 2) (k + 2) s' /\ head_done e t t' /\
    mile StConnectCheck None [] None i t' ((mk_ev HRequestHeaders i PlNone, SOk) :: (mk_ev HRequestHeaderData i (PlData [13; 10]), SOk) :: tr) C s'.
Proof.
  intros Y M Ep Hc Pg R Ht Ok. pose proof (none_eval e _ _ _ _ _ _ _ _ _ _ _ M Ep Hc R Ht) as H1. destruct M as [M1 M2 M3 M4 M5 M6 M7 M8 M9 M10 M11 M12]. rewrite <- M7 in M8.
  destruct (rest_skip _ _ _ _ _ _ R) as [L1 L2]. pose proof R as (_ & _ & Sk). rewrite M7 in *.
  eapply (ph_headers_done e C s _ a t tr [13; 10] tail k i) in H1; [exact H1|exact Y| |exact (rest_no_gap _ _ _ _ _ R)|exact Pg| |exact Sk|exact Ok].
  - constructor; cbn; try assumption; try reflexivity.
  - split; [reflexivity|split; assumption].
Qed.
(** ** The body *)
Lemma ph_connect e C s a rest tr k cb i t m : mile StConnectCheck None [] None i t tr C s -> x_methodn t = MKnown m -> m <> s2b "CONNECT" -> rest_of a rest k cb s ->
  exists s', step SReq e s = (ROk None, s') /\ rest_of a rest k cb s' /\ mile StBodyDetermine None [] None i t tr C s'.
Proof.
  intros [M1 M2 M3 M4 M5 M6 M7 M8 M9 M10 M11 M12] Hm Nc R. rewrite <- M7 in M8.
  assert (H : handle_state SReq e s = (ROk tt, set_s_req (set_d_state StBodyDetermine (s_req s)) s)).
  { unfold handle_state, by_side, handle_request_state. unfold bind at 1, get_d at 1. cbn [s_dir]. rewrite M1. unfold request_connect_check. unfold bind at 1.
    rewrite (need_tx_get SReq _ _ _ M8). rewrite Hm. cbn [is_method]. destruct (bytes_eqb m _) eqn:B; [apply bytes_eqb_eq in B; congruence|]. reflexivity. }
  apply (step_next SReq) in H; [|exact (rest_no_gap _ _ _ _ _ R)|exact (live_not_tunnel _ M3)|discriminate].
  eexists. split; [exact H|]. split; [exact R|]. rewrite M7 in M8. constructor; cbn; assumption || reflexivity.
Qed.
Lemma ph_no_body e C s a rest tr k cb i t : mile StBodyDetermine None [] None i t tr C s ->
  t_coding (x_req t) = CdNoBody \/ (t_coding (x_req t) = CdIdentity /\ t_clen (x_req t) = Some 0) -> rest_of a rest k cb s ->
  exists s', step SReq e s = (ROk None, s') /\ rest_of a rest k cb s' /\ mile StFinalize None [] None i t tr C s'.
Proof.
  intros [M1 M2 M3 M4 M5 M6 M7 M8 M9 M10 M11 M12] Hm R. rewrite <- M7 in M8.
  assert (H : exists d, handle_state SReq e s = (ROk tt, set_s_req (set_d_state StFinalize d) s) /\ d_status d = d_status (s_req s) /\ d_recv d = None /\ d_buf d = [] /\ d_header d = None).
  { unfold handle_state, by_side, handle_request_state. unfold bind at 1, get_d at 1. cbn [s_dir]. rewrite M1. unfold request_body_determine. unfold bind at 1.
    rewrite (need_tx_get SReq _ _ _ M8). destruct Hm as [-> | [-> ->]].
    - exists (s_req s). repeat split; assumption.
    - exists (set_d_left (Some 0) (set_d_clen (Some 0) (s_req s))). repeat split; assumption. }
  destruct H as (d & H & H1 & H2 & H3 & H4). rewrite <- H1 in M3.
  apply (step_next SReq) in H; [|exact (rest_no_gap _ _ _ _ _ R)|exact (live_not_tunnel _ M3)|discriminate].
  eexists. split; [exact H|]. split; [exact R|]. rewrite M7 in M8. constructor; cbn; assumption || reflexivity.
Qed.
Lemma ph_body e C s a rest tr k cb i t n : mile StBodyDetermine None [] None i t tr C s -> t_coding (x_req t) = CdIdentity -> t_clen (x_req t) = Some n -> 0 < n -> rest_of a rest k cb s ->
  exists s', step SReq e s = (ROk None, s') /\ rest_of a rest k cb s' /\ mile StIdentity None [] None i (upd_dir SReq (set_t_prog PBody) t) tr C s' /\ d_left (s_req s') = Some n.
Proof.
  intros [M1 M2 M3 M4 M5 M6 M7 M8 M9 M10 M11 M12] Hc Hl Hn R. rewrite <- M7 in M8.
  assert (H : handle_state SReq e s = (ROk tt, set_s_txs (tx_set (s_ridx s) (upd_dir SReq (set_t_prog PBody) t) (s_txs s)) (set_s_req (set_d_state StIdentity (set_d_left (Some n) (set_d_clen (Some n) (s_req s)))) s))).
  { unfold handle_state, by_side, handle_request_state. unfold bind at 1, get_d at 1. cbn [s_dir]. rewrite M1. unfold request_body_determine. unfold bind at 1.
    rewrite (need_tx_get SReq _ _ _ M8), Hc, Hl. cbn [positive]. destruct (0 <? n) eqn:E; [|lia]. cbn [when]. unfold bind at 1, set_progress, mod_txd.
    rewrite (mod_tx_get SReq _ _ _ _ M8). reflexivity. }
  apply (step_next SReq) in H; [|exact (rest_no_gap _ _ _ _ _ R)|exact (live_not_tunnel _ M3)|discriminate].
  eexists. split; [exact H|]. split; [exact R|]. rewrite M7 in *. split; [|reflexivity]. constructor; cbn; try assumption; try reflexivity.
  - apply (tx_get_set_eq _ _ _ _ M8).
  - intros j Hj. rewrite tx_get_set_other by congruence. now apply M11.
  - now rewrite length_set.
Qed.
Lemma ph_body_wait e C s a tr k cb i t n : mile StIdentity None [] None i t tr C s -> d_left (s_req s) = Some n -> rest_of a [] k cb s ->
  exists s', runs e s s' /\ mile StIdentity None [] None i t tr C s' /\ d_left (s_req s') = Some n.
Proof.
  intros M L R. assert (H : handle_state SReq e s = (RErr SData, s)).
  { unfold handle_state, by_side, handle_request_state. unfold bind at 1, get_d at 1. cbn [s_dir]. rewrite (ml_state _ _ _ _ _ _ _ _ _ M). unfold request_body_identity.
    unfold bind at 1, get_d at 1. cbn [s_dir]. rewrite L. unfold bind at 1, input at 1. rewrite (rest_pd_len _ _ _ _ _ R). change (blen []) with 0. rewrite N.min_0_l. reflexivity. }
  rewrite <- L. eapply pause_plain in H; [|left; reflexivity|exact M|exact (rest_no_gap _ _ _ _ _ R)|exact M]. destruct H as (s' & H1 & H2 & H3 & _). exists s'. auto.
Qed.
Lemma ph_body_part e C s a tr c k cb i t n : yes e -> mile StIdentity None [] None i t tr C s -> t_cep (x_req t) = CeNone -> d_left (s_req s) = Some n -> rest_of a c k cb s ->
  0 < blen c < n ->
  exists s', runs e s s' /\ mile StIdentity None [] None i (grow SReq (blen c) t) (piece i (PlData c) ++ tr) C s' /\ d_left (s_req s') = Some (n - blen c).
Proof.
  intros Y M Ce L R Lc. assert (M' := M). destruct M as [M1 M2 M3 M4 M5 M6 M7 M8 M9 M10 M11 M12]. rewrite <- M7 in M8.
  pose proof (identity_more e s t n a c k cb Y M8 Ce M1 L R Lc) as H. rewrite M7 in *.
  assert (M2' : mile StIdentity None [] None i (grow SReq (blen c) t) (piece i (PlData c) ++ tr) C (ate SReq k c (n - blen c) t s)).
  { unfold ate, body_hooks, push. cbn [s_idx]. rewrite M7. constructor; cbn; try assumption; try reflexivity.
    - apply (tx_get_set_eq _ _ _ _ M8).
    - now rewrite M9.
    - intros j Hj. rewrite tx_get_set_other by congruence. now apply M11.
    - now rewrite length_set. }
  apply (step_err SReq) in H; [|exact (rest_no_gap _ _ _ _ _ R)]. clear M' M1 M2 M3 M4 M5 M6 M9 M10 M11 M12.
  assert (L2 : d_left (s_req (ate SReq k c (n - blen c) t s)) = Some (n - blen c)) by reflexivity.
  set (s1 := ate SReq k c (n - blen c) t s) in *. clearbody s1. destruct M2' as [M1 M2 M3 M4 M5 M6 M7' M8' M9 M10 M11 M12].
  destruct (after_step_data SReq SData e s1) as (p & l & H3 & H4 & _); [now left|exact M4|]. rewrite H3 in H. clear H3. cbn [s_idx] in H4. rewrite M7' in H4.
  destruct H4 as [-> | (H4 & _)]; [|congruence].
  eexists. split; [apply runs_last; exact H|]. split; [constructor; cbn; try assumption; try reflexivity; now left|exact L2].
Qed.
Lemma ph_body_last e C s a tr c tail k cb i t : yes e -> mile StIdentity None [] None i t tr C s -> t_cep (x_req t) = CeNone -> d_left (s_req s) = Some (blen c) -> rest_of a (c ++ tail) k cb s ->
  0 < blen c ->
  exists s', step SReq e s = (ROk None, s') /\ rest_of a tail (k + blen c) cb s' /\
    mile StFinalize None [] None i (grow SReq 0 (grow SReq (blen c) t)) (piece i PlNone ++ piece i (PlData c) ++ tr) C s'.
Proof.
  intros Y [M1 M2 M3 M4 M5 M6 M7 M8 M9 M10 M11 M12] Ce L R Lc. rewrite <- M7 in M8.
  pose proof (identity_last e s t a c tail k cb Y M8 Ce M1 L R Lc) as H.
  apply (step_next SReq) in H; [|exact (rest_no_gap _ _ _ _ _ R)|exact (live_not_tunnel _ M3)|discriminate].
  eexists. split; [exact H|]. destruct (rest_skip _ _ _ _ _ _ R) as [L1 L2]. destruct R as (I & _ & _).
  split; [split; [|split; assumption]|].
  - cbn. rewrite I. reflexivity.
  - unfold ate, body_hooks, push. cbn [s_idx]. rewrite M7 in *. constructor; cbn; rewrite ?M7; try assumption; try reflexivity.
    + apply (tx_get_set_eq _ _ _ _ M8).
    + now rewrite M9.
    + intros j Hj. rewrite tx_get_set_other by congruence. now apply M11.
    + now rewrite length_set.
Qed.
(** ** The end of a request *)
Definition closing (t : tx) : nat := if request_has_body t then 1 else 0.
Definition completed_tx (t : tx) : tx := upd_dir SReq (set_t_prog PComplete) (if request_has_body t then grow SReq 0 t else t).
Lemma ph_complete e C s a rest k cb i t tr buf s1 : yes e -> mile StFinalize None buf None i t tr C s1 ->
  pd_is_gap (s_input s) = false -> handle_request_state e s = state_request_complete e s1 -> rest_of a rest k cb s1 ->
  t_cep (x_req t) = CeNone -> t_prog (x_req t) <> PComplete -> t_prog (x_resp t) <> PComplete -> x_is09 t = false -> cx_table C (i + 1) = None -> i + 1 < 2 ^ 64 ->
  exists s', step SReq e s = (ROk None, s') /\ rest_of a rest k cb s' /\
    resting buf (i + 1) ((mk_ev HRequestComplete i PlNone, SOk) :: concat (repeat (piece i PlNone) (closing t)) ++ tr) (next_ctx i (completed_tx t) C) s'.
Proof.
  intros Y [M1 M2 M3 M4 M5 M6 M7 M8 M9 M10 M11 M12] G H R Ce Pq Ps I9 Nx Li. rewrite <- M7 in M8.
  rewrite (request_complete_eval e s1 t Y M8 Ce) in H; [|destruct (t_prog (x_req t)); try reflexivity; congruence|exact M4].
  assert (Oc : is_complete (completed_tx t) = false).
  { unfold is_complete, completed_tx. destruct (request_has_body t); cbn [x_resp upd_dir set_x_dir set_x_req x_dir grow]; destruct (t_prog (x_resp t)); try (cbn; reflexivity); congruence. }
  unfold completed in H. fold (completed_tx t) in H. rewrite Oc, Bool.andb_false_r, I9 in H.
  assert (Wi : wadd (s_ridx s1) 1 = i + 1) by (rewrite M7; unfold wadd; apply N.mod_small; exact Li).
  apply (step_next SReq) in H; [|exact G| |].
  2:{ destruct (request_has_body t), (_ <? _); exact (live_not_tunnel _ M3). }
  2:{ destruct (request_has_body t), (_ <? _); discriminate. }
  eexists. split; [exact H|]. split; [destruct (request_has_body t), (_ <? _); exact R|].
  unfold closing, body_hooks, push. rewrite <- M7 in Nx, M11, Wi |- *.
  assert (Li' : s_ridx s1 + 1 <> s_ridx s1) by lia.
  assert (Ot : forall j, j <> s_ridx s1 -> tx_get j (tx_set (s_ridx s1) (completed_tx t) (s_txs s1)) = cx_table C j) by (intros j Hj; rewrite tx_get_set_other by congruence; now apply M11).
  assert (Ol : (length (tx_set (s_ridx s1) (completed_tx t) (s_txs s1)) <= S (cx_size C))%nat) by now rewrite length_set.
  destruct (request_has_body t) eqn:Eb, (_ <? _); constructor; cbn; try assumption; try reflexivity.
  all: try (right; split; [rewrite Ot by exact Li'; exact Nx|exact Ol]).
  all: try (rewrite M9; reflexivity); try (left; reflexivity).
  all: intros j Hj; destruct (j =? s_ridx s1) eqn:E; [apply N.eqb_eq in E; subst j; apply (tx_get_set_eq _ _ _ _ M8)|apply Ot; lia].
Qed.
Lemma line_method_good r : good_request r -> line_method (request_line_text r) = rq_method r.
Proof.
  intros (H1 & _). destruct (method_visible _ H1) as [H4 H5]. unfold line_method, request_line_text.
  assert (V1 : forall c, visible c -> negb (is_space c) = true) by (intros c Hc; now rewrite (visible_space _ Hc)).
  replace (span is_space (rq_method r ++ [32] ++ rq_target r ++ s2b " HTTP/1.1" ++ [13; 10])) with (@nil N, rq_method r ++ [32] ++ rq_target r ++ s2b " HTTP/1.1" ++ [13; 10]).
  - cbn [snd]. rewrite span_all; [reflexivity|apply (visible_all _ _ V1 H5)|]. intros c r' [= <- _]. reflexivity.
  - destruct (rq_method r) as [|x m]; [congruence|]. inversion_clear H5 as [|? ? Hx Hm]. cbn [app span]. now rewrite (visible_space _ Hx).
Qed.
Lemma final_empty e s a k cb : d_state (s_req s) = StFinalize -> live_status (d_status (s_req s)) -> rest_of a [] k cb s -> handle_request_state e s = state_request_complete e s.
Proof.
  intros D L R. unfold handle_request_state. unfold bind at 1, get_d at 1. cbn [s_dir]. rewrite D. unfold request_finalize. unfold bind at 1, input at 1. unfold bind at 1, get_d at 1.
  rewrite (rest_no_gap _ _ _ _ _ R), (rest_slice _ _ _ _ _ R). cbn [s_dir]. rewrite (live_closed_eqb _ L). reflexivity.
Qed.
Lemma final_line e s a p q tail r k cb : good_request r -> d_state (s_req s) = StFinalize -> live_status (d_status (s_req s)) -> d_buf (s_req s) = p -> d_header (s_req s) = None ->
  rest_of a (q ++ tail) k cb s -> p ++ q = request_line_text r -> q <> [] -> p = [] \/ k = 0 -> blen (request_line_text r) <= c_field_limit (e_cfg e) ->
  handle_request_state e s = state_request_complete e (set_s_input (mk_pdata (Some a) None k cb) (set_s_req (set_d_consumed k (set_d_buf p (set_d_left None (s_req s)))) s)).
Proof.
  intros G D L B Hh R E Nq K Lim. unfold handle_request_state. unfold bind at 1, get_d at 1. cbn [s_dir]. rewrite D. unfold request_finalize. unfold bind at 1, input at 1. unfold bind at 1, get_d at 1.
  rewrite (rest_no_gap _ _ _ _ _ R), (rest_slice _ _ _ _ _ R). cbn [s_dir]. rewrite (live_closed_eqb _ L).
  replace (is_nil (q ++ tail)) with false by (destruct q; [congruence|reflexivity]).
  destruct (line_split r p q G E Nq) as (q' & Eq & Hq').
  assert (S2 : take_till_lf (q ++ tail) = POk tail q) by (apply take_till_lf_spec; split; [reflexivity|eauto]). rewrite S2. clear S2 Eq Hq' q'.
  assert (Le : blen (request_line_text r) = blen p + blen q) by (rewrite <- E; unfold blen; rewrite app_length; lia).
  assert (Ck : forall z, d_buf (s_req z) = p -> d_header (s_req z) = None -> check_limit_if_buffered SReq (blen q) e z = (ROk tt, z)).
  { intros z Hb Hz. unfold check_limit_if_buffered. unfold bind at 1, get_d at 1. cbn [s_dir]. destruct (is_nil (d_buf (s_req z))); [reflexivity|]. cbn [negb when].
    unfold check_buffer_limit. destruct (blen q =? 0); [reflexivity|]. unfold bind at 1, get_d at 1. unfold bind at 1, ask at 1. cbn [s_dir]. rewrite Hb, Hz.
    destruct (_ <? _) eqn:Ec; [lia|]. reflexivity. }
  pose proof (line_method_good r G) as Hm. destruct R as (I & _ & _).
  destruct s as [rq rs oe cc ci ri pi txs cf si so tr lg inp]. destruct rq as [d1 d2 d3 d4 d5 d6 d7 d8 d9 d10]. cbn in D, L, B, Hh, I. subst d3 d4 d8 inp.
  unfold request_finalize_work. unfold consume, set_input. unfold bind at 1, bind at 1, input at 1. unfold bind at 1, modify at 1. unfold upd_d at 1, modify at 1. unfold bind at 1. rewrite Ck by reflexivity.
  unfold take_buf. ev. rewrite E. unfold request_finalize_line. rewrite Hm.
  replace (is_nil (request_line_text r)) with false by (destruct (request_line_text r) eqn:El; [apply app_eq_nil in E as [_ ->]; congruence|reflexivity]).
  destruct G as (G1 & _). destruct (method_visible _ G1) as [H4 H5]. replace (is_nil (rq_method r)) with false by (destruct (rq_method r); [congruence|reflexivity]).
  rewrite (method_new_known _ G1). cbn [is_unknown]. ev.
  assert (Ef : firstn (length p) (request_line_text r) = p) by (rewrite <- E, firstn_app, Nat.sub_diag, firstn_all; cbn [firstn]; apply app_nil_r).
  assert (Ek : (if blen (request_line_text r) <? k + blen q then k + blen q - blen (request_line_text r) else 0) = k).
  { rewrite Le. destruct K as [-> | ->]; [change (blen []) with 0|]; destruct (_ <? _) eqn:Ec; lia. }
  repeat match goal with |- context [firstn (length p) ?x] => change x with (request_line_text r) end. rewrite Ef.
  unfold pd_unconsume, set_pd_pos. cbn [pd_pos pd_data pd_gap pd_cb app].
  rewrite Ek. reflexivity.
Qed.
Lemma ph_final_part e C s a tr p q k cb i t : mile StFinalize None p None i t tr C s -> rest_of a q k cb s -> ~ In 10 q -> q <> [] -> blen p + blen q <= c_field_limit (e_cfg e) ->
  exists s', runs e s s' /\ mile StFinalize None (p ++ q) None i t tr C s'.
Proof.
  intros M R Nl Nq L. assert (M' := M). destruct M as [M1 M2 M3 M4 M5 M6 M7 M8 M9 M10 M11 M12].
  assert (H : handle_state SReq e s = absent_lf SReq e s).
  { unfold handle_state, by_side, handle_request_state. unfold bind at 1, get_d at 1. cbn [s_dir]. rewrite M1. unfold request_finalize. unfold bind at 1, input at 1. unfold bind at 1, get_d at 1.
    rewrite (rest_no_gap _ _ _ _ _ R), (rest_slice _ _ _ _ _ R). cbn [s_dir]. rewrite (live_closed_eqb _ M3). replace (is_nil q) with false by (destruct q; [congruence|reflexivity]).
    replace (take_till_lf q) with (@PInc bytes) by (symmetry; now apply take_till_lf_spec). reflexivity. }
  rewrite (absent_lf_eval e s a q k cb R M6) in H by (rewrite M5; exact L).
  eapply pause_plain in H; [|right; reflexivity|exact M'|exact (rest_no_gap _ _ _ _ _ R)|].
  - destruct H as (s' & H1 & H2 & _). exists s'. split; [exact H1|exact H2].
  - constructor; cbn; try assumption; try reflexivity. now rewrite M5.
Qed.
(** The transaction before its end. *)
Record closable (t : tx) : Prop := {
  cl_cep : t_cep (x_req t) = CeNone; cl_prog : t_prog (x_req t) <> PComplete; cl_resp : t_prog (x_resp t) <> PComplete; cl_09 : x_is09 t = false }.
Lemma ph_final_end e C s a tr k cb i t : yes e -> mile StFinalize None [] None i t tr C s -> closable t -> cx_table C (i + 1) = None -> i + 1 < 2 ^ 64 -> rest_of a [] k cb s ->
  exists s', step SReq e s = (ROk None, s') /\ rest_of a [] k cb s' /\
    resting [] (i + 1) ((mk_ev HRequestComplete i PlNone, SOk) :: concat (repeat (piece i PlNone) (closing t)) ++ tr) (next_ctx i (completed_tx t) C) s'.
Proof.
  intros Y M [C1 C2 C3 C4] Nx Li R. eapply ph_complete; try eassumption; [exact (rest_no_gap _ _ _ _ _ R)|].
  apply (final_empty e s a k cb); [apply (ml_state _ _ _ _ _ _ _ _ _ M)|apply (ml_live _ _ _ _ _ _ _ _ _ M)|exact R].
Qed.
Lemma ph_final_line e C s a tr p q tail r k cb i t : yes e -> mile StFinalize None p None i t tr C s -> closable t -> cx_table C (i + 1) = None -> i + 1 < 2 ^ 64 -> good_request r ->
  rest_of a (q ++ tail) k cb s -> p ++ q = request_line_text r -> q <> [] -> p = [] \/ k = 0 -> blen (request_line_text r) <= c_field_limit (e_cfg e) ->
  exists s', step SReq e s = (ROk None, s') /\ rest_of a (q ++ tail) k cb s' /\
    resting p (i + 1) ((mk_ev HRequestComplete i PlNone, SOk) :: concat (repeat (piece i PlNone) (closing t)) ++ tr) (next_ctx i (completed_tx t) C) s'.
Proof.
  intros Y [M1 M2 M3 M4 M5 M6 M7 M8 M9 M10 M11 M12] [C1 C2 C3 C4] Nx Li G R E Nq K Lim.
  pose proof (final_line e s a p q tail r k cb G M1 M3 M5 M6 R E Nq K Lim) as H.
  match type of H with _ = _ e ?z => apply (ph_complete e C s a (q ++ tail) k cb i t tr p z Y) end; try assumption; [|exact (rest_no_gap _ _ _ _ _ R)|].
  - constructor; cbn; assumption || reflexivity.
  - destruct R as (I & R1 & R2). split; [reflexivity|split; assumption].
Qed.
