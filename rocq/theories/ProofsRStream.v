(** Streams of well-formed responses, cut in any way: from step to step. *)
From Verif Require Import Base Spec SpecTx SpecMsg SpecResp ModelUtil ModelParsers ModelHeaders ModelState ModelTx ModelConn SpecConn ProofsBase ProofsParsers ProofsHeaders ProofsTx ProofsConn ProofsCore ProofsLoop ProofsHist ProofsEval ProofsBody ProofsHead ProofsFrame ProofsStream ProofsChunk.

(** * Runs of the response parser's loop that end by asking for data *)
Definition rruns (e : env) (s s' : st) : Prop := exists n, loops SResp e n s SsData s'.
Lemma rruns_next e s s1 s' : step SResp e s = (ROk None, s1) -> rruns e s1 s' -> rruns e s s'.
Proof. intros H [n R]. exists (S n). eapply LoopsMore; eassumption. Qed.
Lemma rruns_last e s s' : step SResp e s = (ROk (Some SsData), s') -> rruns e s s'.
Proof. intros H. exists 1%nat. now apply LoopsLast. Qed.

(** * Where the parser is *)
Definition rlive (x : sstate) : Prop := x = SsData \/ x = SsOpen.
Lemma rlive_not_tunnel x : rlive x -> x <> SsTunnel. Proof. intros [-> | ->]; discriminate. Qed.
Lemma rlive_closed_eqb x : rlive x -> sstate_eqb x SsClosed = false. Proof. intros [-> | ->]; reflexivity. Qed.
(** What a response leaves alone. *)
Definition r_outside (s : st) := (s_ridx s, s_req s, s_other_at_end s).
(** A table of at most [n] transactions, each with its own number. *)
Definition stocked (n : nat) (l : list (N * tx)) : Prop := NoDup (map fst l) /\ (length l <= n)%nat.
Lemma keys_set i t l : map fst (tx_set i t l) = map fst l.
Proof. induction l as [|[j u] l IH]; cbn [tx_set]; [reflexivity|]. destruct (i =? j); cbn [map fst]; congruence. Qed.
Lemma stocked_set n i t l : stocked n l -> stocked n (tx_set i t l).
Proof. intros [H1 H2]. split; [now rewrite keys_set|now rewrite length_set]. Qed.
Lemma get_none i l : tx_get i l = None <-> ~ In i (map fst l).
Proof.
  induction l as [|[j u] l IH]; cbn [tx_get map fst In]; [tauto|]. destruct (i =? j) eqn:E.
  - split; [discriminate|]. intros H. exfalso. apply H. left. lia.
  - rewrite IH. split; [intros H [G|G]; [lia|tauto]|tauto].
Qed.
Lemma keys_put i t l : tx_get i l = None -> NoDup (map fst l) -> NoDup (map fst (tx_put i t l)).
Proof.
  assert (Q : forall l x, In x (map fst (tx_put i t l)) -> x = i \/ In x (map fst l)).
  { clear l. intros l x. induction l as [|[j u] l IH]; cbn [tx_put map fst In]; [intuition congruence|]. destruct (i =? j) eqn:E; [cbn [map fst In]; intuition congruence|]. destruct (i <? j); cbn [map fst In]; intuition congruence. }
  intros H N0. induction l as [|[j u] l IH]; cbn [tx_put]; [repeat constructor; auto|]. cbn [tx_get] in H. destruct (i =? j) eqn:E; [discriminate|].
  cbn [map fst] in N0. inversion_clear N0 as [|? ? N1 N2]. destruct (i <? j); cbn [map fst].
  - constructor; [|constructor; assumption]. cbn [In]. apply get_none in H. intros [G|G]; [lia|tauto].
  - constructor; [|now apply IH]. intro G. apply Q in G as [G|G]; [lia|tauto].
Qed.
Lemma stocked_put n i t l : tx_get i l = None -> stocked n l -> stocked (S n) (tx_put i t l).
Proof. intros H [H1 H2]. split; [now apply keys_put|]. pose proof (length_put i t l). lia. Qed.
Lemma keys_del_in i x l : In x (map fst (tx_del i l)) -> In x (map fst l).
Proof. induction l as [|[j u] l IH]; cbn [tx_del map fst In]; [tauto|]. destruct (i =? j); cbn [map fst In]; tauto. Qed.
Lemma keys_del i l : NoDup (map fst l) -> NoDup (map fst (tx_del i l)).
Proof.
  induction l as [|[j u] l IH]; cbn [tx_del map fst]; [auto|]. intro H. inversion_clear H as [|? ? N1 N2]. destruct (i =? j); [assumption|]. cbn [map fst]. constructor; [|auto].
  intro G. apply N1. eapply keys_del_in; eassumption.
Qed.
Lemma get_del i l : NoDup (map fst l) -> tx_get i (tx_del i l) = None.
Proof.
  induction l as [|[j u] l IH]; cbn [tx_del map fst]; [auto|]. intro H. inversion_clear H as [|? ? N1 N2]. destruct (i =? j) eqn:E.
  - apply get_none. apply N.eqb_eq in E. now subst.
  - cbn [tx_get]. rewrite E. auto.
Qed.
Lemma length_del_lt i l : tx_get i l <> None -> S (length (tx_del i l)) = length l.
Proof.
  induction l as [|[j u] l IH]; cbn [tx_del tx_get length]; [congruence|]. destruct (i =? j) eqn:E; [reflexivity|]. intro H. cbn [length]. now rewrite IH.
Qed.
Lemma stocked_del n i l : tx_get i l <> None -> stocked n l -> stocked (pred n) (tx_del i l).
Proof. intros H [H1 H2]. split; [now apply keys_del|]. pose proof (length_del_lt i l H). lia. Qed.
(** The response parser, reading response [i], whose transaction is [t], before a step in state [x]. *)
Record rmile (x : pstate) (rv : option hook) (buf : bytes) (hdr : option bytes) (i : N) (t : tx) (tr : list (event * status)) (C : ctx) (s : st) : Prop := {
  rm_state : d_state (s_resp s) = x; rm_prev : d_prev (s_resp s) = x; rm_live : rlive (d_status (s_resp s));
  rm_recv : d_recv (s_resp s) = rv; rm_buf : d_buf (s_resp s) = buf; rm_header : d_header (s_resp s) = hdr;
  rm_idx : s_pidx s = i; rm_tx : tx_get i (s_txs s) = Some t; rm_trace : s_trace s = tr; rm_outside : r_outside s = cx_rest C;
  rm_others : forall j, j <> i -> tx_get j (s_txs s) = cx_table C j;
  rm_size : stocked (cx_size C) (s_txs s) }.
(** The response parser between responses; nothing else happened to the transactions, except that an empty one may have been created. *)
Record rresting (buf : bytes) (i : N) (tr : list (event * status)) (C : ctx) (s : st) : Prop := {
  rr_state : d_state (s_resp s) = StIdle; rr_prev : d_prev (s_resp s) = StIdle \/ d_prev (s_resp s) = StNone; rr_live : rlive (d_status (s_resp s));
  rr_recv : d_recv (s_resp s) = None; rr_buf : d_buf (s_resp s) = buf; rr_header : d_header (s_resp s) = None;
  rr_idx : s_pidx s = i;
  rr_tx : (tx_get i (s_txs s) = cx_table C i /\ stocked (cx_size C) (s_txs s)) \/
          (cx_table C i = None /\ tx_get i (s_txs s) = Some tx_new /\ stocked (S (cx_size C)) (s_txs s));
  rr_trace : s_trace s = tr; rr_outside : r_outside s = cx_rest C;
  rr_others : forall j, j <> i -> tx_get j (s_txs s) = cx_table C j }.

(** The fields of a request are not touched. *)
Definition same_request (t t' : tx) : Prop :=
  x_req t' = x_req t /\ x_method t' = x_method t /\ x_methodn t' = x_methodn t /\ x_uri t' = x_uri t /\ x_is09 t' = x_is09 t /\ x_where t' = x_where t.
Lemma same_request_refl t : same_request t t. Proof. repeat split; reflexivity. Qed.
Lemma same_request_trans a b c : same_request a b -> same_request b c -> same_request a c.
Proof. intros (? & ? & ? & ? & ? & ?) (? & ? & ? & ? & ? & ?). unfold same_request. repeat (split; [congruence|]). congruence. Qed.
Lemma asked_same m t t' : asked m t -> same_request t t' -> asked m t'.
Proof. intros [A1 A2 A3 A4 A5 A6 A7 A8 A9 A10 A11] (B1 & B2 & B3 & B4 & B5 & B6). injection B6 as B6 B7 B8. constructor; rewrite ?B1, ?B2, ?B3, ?B4, ?B5, ?B6, ?B7, ?B8; assumption. Qed.

(** ** The first step of a response *)
Definition started (t : tx) : tx := upd_dir SResp (set_t_prog PLine) t.
Lemma rs_start e i tr C s a rest k cb p t m : yes e -> rresting p i tr C s -> cx_table C i = Some t -> asked m t -> rest_of a rest k cb s -> rest <> [] ->
  exists s', step SResp e s = (ROk None, s') /\ rest_of a rest k cb s' /\
    rmile StLine None p None i (started t) ((mk_ev HResponseStart i PlNone, SOk) :: tr) C s'.
Proof.
  intros Y [D1 D2 D3 D4 D5 D6 D7 T D8 D9 D10] Ct [A1 A2 A3 _ _ A4 A5 A6 A7 A8 A9] R Nr.
  destruct T as [[T L] | (T & _)]; [|congruence]. rewrite Ct in T.
  assert (Ne : pd_is_empty (s_input s) = false).
  { unfold pd_is_empty. rewrite (rest_pd_len _ _ _ _ _ R). destruct rest; [congruence|]. apply N.eqb_neq. unfold blen. cbn. lia. }
  assert (H : handle_state SResp e s = (ROk tt, push HResponseStart i PlNone (set_s_txs (tx_set i (started t) (s_txs s))
     (set_s_resp (set_d_state StLine (set_d_left None (set_d_clen None (s_resp s)))) s)))).
  { unfold handle_state, by_side, handle_response_state. unfold bind at 1, get_d at 1. cbn [s_dir]. rewrite D1. unfold response_idle.
    unfold bind at 1, input at 1. rewrite Ne. unfold bind at 1. rewrite (need_tx_get SResp _ _ t) by (cbn [s_idx]; rewrite D7; exact T). rewrite A8. change (prog_eqb PComplete PNotStarted) with false. cbn [when]. unfold bind at 1, ret at 1.
    unfold bind at 1, upd_d at 1, modify at 1. unfold state_response_start. unfold bind at 1.
    rewrite (need_tx_get SResp _ _ t) by (cbn; rewrite D7; exact T). rewrite A9. unfold bind at 1. unfold bind at 1. unfold set_progress at 1, mod_txd.
    rewrite (mod_tx_get SResp _ _ _ t) by (cbn; rewrite D7; exact T). fold (started t).
    destruct s as [rq rs oe cc ci ri pi txs cf si so tr' lg inp]. destruct rs as [d1 d2 d3 d4 d5 d6 d7 d8 d9 d10]. cbn in *. subst. ev.
    assert (T2 : tx_get i (tx_set i (started t) txs) = Some (started t)) by apply (tx_get_set_eq _ _ _ _ T).
    rewrite (tx_hook_yes e _ _ _ (started t) Y) by exact T2. unfold push. ev. rewrite (the_tx_get SResp _ _ (started t)) by exact T2.
    change (x_method (started t)) with (x_method t). rewrite A1. reflexivity. }
  apply (step_next SResp) in H; [|exact (rest_no_gap _ _ _ _ _ R)|exact (rlive_not_tunnel _ D3)|discriminate].
  eexists. split; [exact H|]. split; [exact R|]. constructor; cbn; try assumption; try reflexivity.
  - apply (tx_get_set_eq _ _ _ _ T).
  - now rewrite D8.
  - intros j Hj. rewrite tx_get_set_other by congruence. now apply D10.
  - now apply stocked_set.
Qed.
(** All of the chunk was read and there is no new response. *)
Lemma rs_rest e i tr C s a k cb : rresting [] i tr C s -> rest_of a [] k cb s -> exists s', rruns e s s' /\ rresting [] i tr C s'.
Proof.
  intros [D1 D2 D3 D4 D5 D6 D7 T D8 D9 D10] R.
  assert (H : handle_state SResp e s = (RErr SData, s)).
  { unfold handle_state, by_side, handle_response_state, response_idle. unfold bind at 1, get_d at 1. cbn [s_dir]. rewrite D1. unfold bind at 1, input at 1.
    unfold pd_is_empty. rewrite (rest_pd_len _ _ _ _ _ R). reflexivity. }
  apply (step_err SResp) in H; [|exact (rest_no_gap _ _ _ _ _ R)].
  destruct (after_step_data SResp SData e s) as (p & l & H3 & H4 & _); [now left|exact D4|]. rewrite H3 in H. clear H3. cbn [s_idx] in H4. rewrite D7 in H4.
  eexists. split; [apply rruns_last; exact H|]. constructor; cbn; try assumption; try reflexivity; try (now left).
  - destruct H4 as [-> | (H4 & _ & ->)]; [exact T|]. destruct T as [[T L] | (_ & T & _)]; [|congruence]. right. rewrite H4 in T. split; [now symmetry|]. split; [apply tx_get_put|]. now apply stocked_put.
  - intros j Hj. rewrite (looked_other _ _ _ _ j H4) by exact Hj. now apply D10.
Qed.
(** ** Pauses *)
Lemma rabsent_lf_eval e s a c k cb : rest_of a c k cb s -> d_header (s_resp s) = None -> blen (d_buf (s_resp s)) + blen c <= c_field_limit (e_cfg e) ->
  absent_lf SResp e s = (RErr SDataBuffer, set_s_input (mk_pdata (Some a) None (k + blen c) cb) (set_s_resp (set_d_consumed (k + blen c) (set_d_buf (d_buf (s_resp s) ++ c) (s_resp s))) s)).
Proof.
  intros R H L. unfold absent_lf. unfold bind at 1, input at 1. rewrite (rest_pd_len _ _ _ _ _ R), (rest_slice _ _ _ _ _ R). destruct R as (I & _ & _).
  assert (Ck : check_buffer_limit SResp (blen c) e s = (ROk tt, s)).
  { unfold check_buffer_limit. destruct (blen c =? 0); [reflexivity|]. unfold bind at 1, get_d at 1. unfold bind at 1, ask at 1. cbn [s_dir]. rewrite H.
    destruct (_ <? _) eqn:E; [lia|]. reflexivity. }
  unfold bind at 1. rewrite Ck. destruct s as [rq rs oe cc ci ri pi txs cf si so tr lg inp]. destruct rs as [d1 d2 d3 d4 d5 d6 d7 d8 d9 d10]. cbn in *. subst. reflexivity.
Qed.
Lemma rpause_plain e x y i t tr C s s1 buf hdr : pausing x -> pd_is_gap (s_input s) = false -> handle_state SResp e s = (RErr x, s1) ->
  rmile y None buf hdr i t tr C s1 -> exists s', rruns e s s' /\ rmile y None buf hdr i t tr C s' /\ d_left (s_resp s') = d_left (s_resp s1) /\ d_chunk (s_resp s') = d_chunk (s_resp s1).
Proof.
  intros X G H [M1 M2 M3 M4 M5 M6 M7 M8 M9 M10 M11 M12]. apply (step_err SResp) in H; [|exact G].
  destruct (after_step_data SResp x e s1) as (p & l & H3 & H4 & _); [exact X|exact M4|]. rewrite H3 in H. clear H3. cbn [s_idx] in H4. rewrite M7 in H4.
  destruct H4 as [-> | (H4 & _)]; [|congruence].
  eexists. split; [apply rruns_last; exact H|]. split; [constructor; cbn; try assumption; try reflexivity; now left|split; reflexivity].
Qed.
(** ** The status line *)
Definition plain_line (q : bytes) : Prop := Forall (fun c => c <> 10 /\ c <> 13) q.
Lemma eol_absent q : plain_line q -> take_till_eol q = PInc.
Proof.
  intro H. unfold take_till_eol, pbind at 1. unfold take_till_s, take_while_s. replace (span (fun c => negb ((c =? 10) || (c =? 13))) q) with (q, @nil N); [reflexivity|].
  symmetry. rewrite <- (app_nil_r q) at 1. apply span_all; [|discriminate]. revert H. apply Forall_impl. intros; lia.
Qed.
Lemma eol_found l tail : plain_line l -> take_till_eol ((l ++ [13; 10]) ++ tail) = POk tail (l ++ [13; 10], EolCRLF).
Proof.
  intro H. unfold take_till_eol, pbind at 1. unfold take_till_s, take_while_s. rewrite <- app_assoc.
  rewrite (span_all (fun c => negb ((c =? 10) || (c =? 13))) l ([13; 10] ++ tail)).
  - cbn [app]. unfold pbind. change (eol_alternatives (13 :: 10 :: tail)) with (POk tail [13; 10]). unfold pret. change (bytes_eqb [13; 10] [10]) with false. change (bytes_eqb [13; 10] [13]) with false. change (bytes_eqb [13; 10] [13; 10]) with true. cbv iota.
    change (l ++ 13 :: 10 :: tail) with (l ++ [13; 10] ++ tail). rewrite app_assoc. replace (length l + 2)%nat with (length (l ++ [13; 10])) by (rewrite app_length; reflexivity).
    rewrite skipn_app, skipn_all, firstn_app, firstn_all, Nat.sub_diag. cbn [skipn firstn app]. now rewrite app_nil_r.
  - revert H. apply Forall_impl. intros; lia.
  - intros c r [= <- _]. reflexivity.
Qed.
(** Its parts. *)
Definition good_status (r : response) : Prop :=
  length (rp_code r) = 3%nat /\ Forall digit (rp_code r) /\ 100 <= rp_status r /\
  Forall (fun c => c <> 10 /\ c <> 13) (rp_reason r) /\ (forall c x, rp_reason r = c :: x -> is_ascii_ws c = false).
Definition line_body (r : response) : bytes := s2b "HTTP/1.1 " ++ rp_code r ++ [32] ++ rp_reason r.
Lemma status_line_body r : status_line_text r = line_body r ++ [13; 10].
Proof. unfold status_line_text, line_body. now rewrite <- !app_assoc. Qed.
Lemma line_body_plain r : good_status r -> plain_line (line_body r).
Proof.
  intros (_ & H2 & _ & H4 & _). unfold line_body, plain_line. repeat (apply Forall_app; split); try exact H4; try (repeat constructor; discriminate).
  revert H2. apply Forall_impl. unfold digit. intros; lia.
Qed.
Lemma code_value r : good_status r -> rp_status r <= 999.
Proof.
  intros (H1 & H2 & _). unfold rp_status. destruct (rp_code r) as [|a [|b [|c [|]]]]; try discriminate. inversion_clear H2 as [|? ? Ha H]. inversion_clear H as [|? ? Hb H']. inversion_clear H' as [|? ? Hc _].
  unfold digit in *. unfold dec_value. cbn [fold_left]. lia.
Qed.
Definition with_status (r : response) (t : tx) : tx :=
  set_x_msg (Some (rp_reason r)) (set_x_statusn (RnValid (rp_status r)) (set_x_status (Some (rp_code r))
    (upd_dir SResp (fun d => set_t_proton ProtoV1_1 (set_t_proto (Some (s2b "HTTP/1.1")) (set_t_line (Some (status_line_text r)) d))) t))).
Lemma parse_status_line r t : good_status r ->
  fst (conn_parse_response_line (status_line_text r) (set_x_status None (set_x_msg None (upd_dir SResp (fun d => set_t_proto None (set_t_line None d)) t)))) = with_status r t.
Proof.
  intro G. pose proof (code_value r G) as Hv. destruct G as (H1 & H2 & H3 & H4 & H5). unfold conn_parse_response_line.
  assert (Ne : rp_code r <> []) by (intro E; rewrite E in H1; discriminate).
  set (L := set_t_line (Some (status_line_text r))).
  replace (span (fun c => is_space c || (c =? 0)) (status_line_text r)) with (@nil N, status_line_text r) by reflexivity.
  replace (span (fun c => negb (is_space c)) (status_line_text r)) with (s2b "HTTP/1.1", [32] ++ rp_code r ++ [32] ++ rp_reason r ++ [13; 10]).
  2:{ symmetry. unfold status_line_text. change (s2b "HTTP/1.1 ") with (s2b "HTTP/1.1" ++ [32]). rewrite <- app_assoc. apply span_all; [repeat constructor|]. intros c x [= <- _]. reflexivity. }
  assert (Dg : forall c, digit c -> is_space c = false) by (unfold digit, is_space; intros; lia).
  replace (span is_space ([32] ++ rp_code r ++ [32] ++ rp_reason r ++ [13; 10])) with ([32], rp_code r ++ [32] ++ rp_reason r ++ [13; 10]).
  2:{ symmetry. apply span_all; [repeat constructor|]. intros c x E. destruct (rp_code r) as [|d l]; [congruence|]. inversion_clear H2. injection E as <- _. now apply Dg. }
  replace (span (fun c => negb (is_space c)) (rp_code r ++ [32] ++ rp_reason r ++ [13; 10])) with (rp_code r, [32] ++ rp_reason r ++ [13; 10]).
  2:{ symmetry. apply span_all; [|intros c x [= <- _]; reflexivity]. revert H2. apply Forall_impl. intros c Hc. now rewrite (Dg c Hc). }
  assert (M : exists ws msg, span is_ascii_ws ([32] ++ rp_reason r ++ [13; 10]) = (ws, msg) /\ ws <> [] /\ chomp msg = rp_reason r).
  { destruct (rp_reason r) as [|c x] eqn:Er.
    - exists [32; 13; 10], []. repeat split; try reflexivity. discriminate.
    - exists [32], ((c :: x) ++ [13; 10]). split; [|split; [discriminate|]].
      + apply span_all; [repeat constructor|]. intros c' x' [= <- _]. apply (H5 c x eq_refl).
      + unfold chomp. apply (drop_while_end_unique _ _ _ [13; 10]); [reflexivity|repeat constructor|]. intros y z E. rewrite Forall_forall in H4.
        assert (I : In y (c :: x)) by (rewrite E; apply in_or_app; right; now left). apply H4 in I. lia. }
  destruct M as (ws & msg & -> & Nw & Ch). cbv iota beta. change (is_nil (s2b "HTTP/1.1")) with false. cbv iota.
  destruct (parse_protocol_log (s2b "HTTP/1.1")) as [pn lg] eqn:P. vm_compute in P. injection P as <- <-.
  cbn [is_nil orb]. replace (is_nil (rp_code r)) with false by (destruct (rp_code r); [congruence|reflexivity]). replace (is_nil ws) with false by (destruct ws; [congruence|reflexivity]).
  replace (parse_status (rp_code r)) with (Some (rp_status r)).
  2:{ symmetry. apply parse_status_spec. exists [], (rp_code r), []. rewrite app_nil_r. repeat split; try constructor; try assumption. all: unfold rp_status in *; lia. }
  rewrite Ch. cbn [fst]. unfold with_status, L. destruct t. reflexivity.
Qed.
Lemma validate_good r t : good_status r -> validate_response_line (with_status r t) = (with_status r t, []).
Proof.
  intro G. pose proof (code_value r G) as Hv. destruct G as (_ & _ & H3 & _). unfold validate_response_line. change (t_proton (x_resp (with_status r t))) with ProtoV1_1. cbv iota.
  change (x_statusn (with_status r t)) with (RnValid (rp_status r)). unfold in_range. replace ((100 <=? rp_status r) && (rp_status r <=? 999)) with true by (symmetry; lia). reflexivity.
Qed.
Lemma status_not_ignorable pers r : is_line_ignorable pers (status_line_text r) = false.
Proof. unfold is_line_ignorable, is_line_terminator. destruct pers; reflexivity. Qed.
Lemma status_not_body r : treat_response_line_as_body (status_line_text r) = false.
Proof. reflexivity. Qed.
(** A step that enters a block of lines. *)
Lemma step_enter e s s1 t a k cb h : pd_is_gap (s_input s) = false -> handle_state SResp e s = (ROk tt, s1) ->
  rlive (d_status (s_resp s1)) -> d_state (s_resp s1) = StHeaders -> d_prev (s_resp s1) <> StHeaders ->
  tx_get (s_pidx s1) (s_txs s1) = Some t -> s_input s1 = mk_pdata (Some a) None k cb ->
  (t_prog (x_resp t) = PHeaders /\ h = HResponseHeaderData) \/ (t_prog (x_resp t) = PTrailer /\ h = HResponseTrailerData) ->
  step SResp e s = (ROk None, set_s_input (mk_pdata (Some a) None k k) (set_s_resp (set_d_prev StHeaders (set_d_recv (Some h) (s_resp s1))) s1)).
Proof.
  intros G H L D Dp T I P. unfold step. unfold bind at 1, input at 1. unfold bind at 1, get_d at 1. rewrite G. cbn [andb].
  unfold bind at 1, try at 1. rewrite H. unfold bind at 1, get_d at 1. cbn [s_dir].
  replace (sstate_eqb (d_status (s_resp s1)) SsTunnel) with false by (destruct L as [-> | ->]; reflexivity).
  unfold bind at 1, try at 1, handle_state_change. unfold bind at 1, get_d at 1. cbn [s_dir].
  rewrite D. replace (pstate_eqb (d_prev (s_resp s1)) StHeaders) with false by (destruct (d_prev (s_resp s1)); congruence || reflexivity). cbn [pstate_eqb].
  unfold bind at 1. unfold by_side at 1. unfold bind at 1. rewrite (need_tx_get SResp _ _ t) by exact T. unfold bind at 1, modify at 1. cbn [x_dir].
  destruct s1 as [rq rs oe cc ci ri pi txs cf si so tr' lg inp]. destruct rs as [d1 d2 d3 d4 d5 d6 d7 d8 d9 d10]. cbn in *. subst.
  destruct P as [[-> ->] | [-> ->]]; reflexivity.
Qed.
Lemma rs_line_part e C s a tr p q k cb i t : rmile StLine None p None i t tr C s -> rest_of a q k cb s -> plain_line q -> blen p + blen q <= c_field_limit (e_cfg e) ->
  exists s', rruns e s s' /\ rmile StLine None (p ++ q) None i t tr C s'.
Proof.
  intros M R Nl L. destruct M as [M1 M2 M3 M4 M5 M6 M7 M8 M9 M10 M11 M12].
  assert (H : handle_state SResp e s = absent_lf SResp e s).
  { unfold handle_state, by_side, handle_response_state. unfold bind at 1, get_d at 1. cbn [s_dir]. rewrite M1. unfold response_line. unfold bind at 1, input at 1. unfold bind at 1, get_d at 1.
    rewrite (rest_slice _ _ _ _ _ R). rewrite (eol_absent _ Nl). cbn [s_dir]. now rewrite (rlive_closed_eqb _ M3). }
  rewrite (rabsent_lf_eval e s a q k cb R M6) in H by (rewrite M5; exact L).
  eapply (rpause_plain e _ StLine i t tr C) in H; [|right; reflexivity|exact (rest_no_gap _ _ _ _ _ R)|].
  - destruct H as (s' & H1 & H2 & _). exists s'. split; [exact H1|exact H2].
  - constructor; cbn; try assumption; try reflexivity. now rewrite M5.
Qed.
Definition lined (r : response) (t : tx) : tx := upd_dir SResp (set_t_prog PHeaders) (with_status r t).
(** The state after a status line. *)
Definition past_line (r : response) (t : tx) (a : bytes) (k : N) (lg : list logmsg) (s : st) : st :=
  set_s_logs lg (set_s_trace ((mk_ev HResponseLine (s_pidx s) PlNone, SOk) :: s_trace s) (set_s_txs (tx_set (s_pidx s) (lined r t) (s_txs s))
    (set_s_input (mk_pdata (Some a) None k k)
      (set_s_resp (set_d_prev StHeaders (set_d_recv (Some HResponseHeaderData) (set_d_state StHeaders (set_d_consumed k (set_d_buf [] (s_resp s)))))) s)))).
Lemma rline_step e C s a r tr p l tail k cb i t rv : yes e -> good_status r -> rmile StLine rv p None i t tr C s ->
  rest_of a ((l ++ [13; 10]) ++ tail) k cb s -> p ++ l = line_body r -> blen (status_line_text r) <= c_field_limit (e_cfg e) ->
  exists lg, step SResp e s = (ROk None, past_line r t a (k + blen (l ++ [13; 10])) lg s).
Proof.
  intros Y G [M1 M2 M3 M4 M5 M6 M7 M8 M9 M10 M11 M12] R E Lim. rewrite <- M7 in M8.
  assert (Pl : plain_line l) by (pose proof (line_body_plain r G) as K; rewrite <- E in K; now apply Forall_app in K).
  set (q := l ++ [13; 10]) in *. assert (Eq : p ++ q = status_line_text r) by (unfold q; rewrite status_line_body, <- E, app_assoc; reflexivity).
  assert (H : exists lg, handle_state SResp e s = (ROk tt, set_s_logs lg (set_s_trace ((mk_ev HResponseLine (s_pidx s) PlNone, SOk) :: s_trace s)
     (set_s_txs (tx_set (s_pidx s) (lined r t) (s_txs s)) (set_s_input (mk_pdata (Some a) None (k + blen q) cb)
       (set_s_resp (set_d_state StHeaders (set_d_consumed (k + blen q) (set_d_buf [] (s_resp s)))) s)))))).
  { unfold handle_state, by_side, handle_response_state. unfold bind at 1, get_d at 1. cbn [s_dir]. rewrite M1. unfold response_line. unfold bind at 1, input at 1. unfold bind at 1, get_d at 1.
    rewrite (rest_slice _ _ _ _ _ R). unfold q. rewrite (eol_found l tail Pl). fold q. destruct R as (I & _ & _). clear M9 M10 M11 M12.
    destruct s as [rq rs oe cc ci ri pi txs cf si so tr' lg inp]. destruct rs as [d1 d2 d3 d4 d5 d6 d7 d8 d9 d10]. cbn in M1, M2, M3, M4, M5, M6, M7, M8, I. subst d3 d4 d8 inp.
    unfold take_buf. ev. rewrite Eq. unfold response_line_complete, check_buffer_limit.
    destruct (blen (status_line_text r) =? 0) eqn:E0; [discriminate E0|]. ev.
    replace (blen [] + blen (status_line_text r) + 0) with (blen (status_line_text r)) by (cbn; lia).
    destruct (c_field_limit (e_cfg e) <? blen (status_line_text r)) eqn:E1; [lia|].
    replace (match status_line_text r with [] => true | _ :: _ => false end) with false by reflexivity. ev.
    rewrite (need_tx_get SResp _ _ t) by exact M8. rewrite status_not_ignorable.
    rewrite (mod_tx_get SResp _ _ _ t) by exact M8. rewrite status_not_body. ev.
    set (t1 := set_x_status None _).
    match goal with |- context [mod_tx_log SResp ?f e ?z] => destruct (mod_tx_log_get SResp f e z t1) as [l1 E2]; [apply (tx_get_set_eq _ _ _ _ M8)|] end.
    unfold t1 in E2 at 3. rewrite (parse_status_line r t G) in E2. rewrite E2. clear E2. ev. rewrite tx_set_set. unfold state_response_line. ev.
    assert (T2 : tx_get pi (tx_set pi (with_status r t) txs) = Some (with_status r t)) by apply (tx_get_set_eq _ _ _ _ M8).
    rewrite (need_tx_get SResp _ _ (with_status r t)) by exact T2.
    match goal with |- context [mod_tx_log SResp ?f e ?z] => destruct (mod_tx_log_get SResp f e z (with_status r t) T2) as [l2 E2] end.
    rewrite (validate_good r t G) in E2. rewrite E2. clear E2. ev. rewrite tx_set_set. cbn [fst].
    rewrite (tx_hook_yes e _ _ _ (with_status r t) Y) by exact T2. unfold push. ev. unfold set_progress, mod_txd. rewrite (mod_tx_get SResp _ _ _ (with_status r t)) by exact T2. ev.
    exists l2. rewrite tx_set_set. reflexivity. }
  destruct H as [lg H].
  eapply step_enter in H; [|exact (rest_no_gap _ _ _ _ _ R)|exact M3|reflexivity|cbn; rewrite M2; discriminate|cbn; apply (tx_get_set_eq _ _ _ _ M8)|reflexivity|left; split; reflexivity].
  exists lg. exact H.
Qed.
Lemma rs_line_any e C s a r tr p l tail k cb i t rv : yes e -> good_status r -> rmile StLine rv p None i t tr C s ->
  rest_of a ((l ++ [13; 10]) ++ tail) k cb s -> p ++ l = line_body r -> blen (status_line_text r) <= c_field_limit (e_cfg e) ->
  exists s', step SResp e s = (ROk None, s') /\ rest_of a tail (k + blen (l ++ [13; 10])) (k + blen (l ++ [13; 10])) s' /\
    rmile StHeaders (Some HResponseHeaderData) [] None i (lined r t) ((mk_ev HResponseLine i PlNone, SOk) :: tr) C s'.
Proof.
  intros Y G M R E Lim. destruct (rline_step e C s a r tr p l tail k cb i t rv Y G M R E Lim) as [lg H].
  destruct M as [M1 M2 M3 M4 M5 M6 M7 M8 M9 M10 M11 M12]. destruct (rest_skip _ _ _ _ _ _ R) as [L1 L2]. unfold past_line in H. rewrite M7 in H.
  eexists. split; [exact H|]. split; [split; [reflexivity|split; assumption]|]. constructor; cbn; try assumption; try reflexivity.
  - apply (tx_get_set_eq _ _ _ _ M8).
  - now rewrite M9.
  - intros j Hj. rewrite tx_get_set_other by congruence. now apply M11.
  - now apply stocked_set.
Qed.
Lemma rs_line e C s a r tr p l tail k cb i t : yes e -> good_status r -> rmile StLine None p None i t tr C s ->
  rest_of a ((l ++ [13; 10]) ++ tail) k cb s -> p ++ l = line_body r -> blen (status_line_text r) <= c_field_limit (e_cfg e) ->
  exists s', step SResp e s = (ROk None, s') /\ rest_of a tail (k + blen (l ++ [13; 10])) (k + blen (l ++ [13; 10])) s' /\
    rmile StHeaders (Some HResponseHeaderData) [] None i (lined r t) ((mk_ev HResponseLine i PlNone, SOk) :: tr) C s'.
Proof. apply rs_line_any. Qed.
(** ** Blocks of lines *)
Definition rgains (t t' : tx) : Prop :=
  (exists r h, x_resp t' = set_t_reps r (set_t_headers h (x_resp t))) /\ same_request t t' /\
  x_status t' = x_status t /\ x_statusn t' = x_statusn t /\ x_msg t' = x_msg t.
Lemma add_header_rgains h t : rgains t (fst (add_header SResp h t)).
Proof.
  unfold add_header. destruct (header_flags SResp h (x_flags t)) as [[xf hf] lg].
  destruct (merge_header SResp _ _) as [d lg2] eqn:E. cbn [fst]. split; [|repeat split; reflexivity]. cbn.
  unfold merge_header in E. destruct (headers_get_nocase _ _) as [ex|].
  - destruct (_ && _).
    + injection E as <- <-. exists (t_reps (x_resp t)), (t_headers (x_resp t)). cbn. destruct (x_resp t); reflexivity.
    + injection E as <- <-. eexists _, _. reflexivity.
  - injection E as <- <-. exists (t_reps (x_resp t)), (t_headers (x_resp t) ++ [mk_header (hf_bytes (ph_name h)) (hf_bytes (ph_value h)) hf]). cbn. destruct (x_resp t); reflexivity.
Qed.
Lemma add_headers_rgains hs : forall t, rgains t (add_headers SResp hs t).
Proof.
  induction hs as [|h hs IH]; intro t.
  - split; [|repeat split; reflexivity]. exists (t_reps (x_resp t)), (t_headers (x_resp t)). cbn. destruct (x_resp t); reflexivity.
  - cbn [add_headers fold_left]. destruct (add_header_rgains h t) as ((r1 & h1 & E1) & A1 & A2 & A3 & A4). destruct (IH (fst (add_header SResp h t))) as ((r2 & h2 & E2) & B1 & B2 & B3 & B4).
    unfold add_headers in *. split; [|split; [eapply same_request_trans; eassumption|repeat split; congruence]]. exists r2, h2. rewrite E2, E1. reflexivity.
Qed.
(** What happens at the end of a block. *)
Definition block_end (i : N) : M unit :=
  let* t := the_tx SResp in if prog_eqb (t_prog (x_resp t)) PHeaders then set_state SResp StBodyDetermine else response_trailer_done i.
Definition ends_block (ls : list hline) (tail : bytes) : Prop := (ls <> [] /\ after_ok SResp tail) \/ (ls = [] /\ tail = []).
Lemma rblock_eval e s t a ls p q tail k cb : Forall good_hline ls -> ends_block ls tail -> tx_get (s_pidx s) (s_txs s) = Some t -> t_hpc (x_resp t) = false ->
  d_state (s_resp s) = StHeaders -> rlive (d_status (s_resp s)) -> d_header (s_resp s) = p ->
  rest_of a (q ++ tail) k cb s -> q <> [] -> opt_text p ++ q = block_text ls ++ [13; 10] ->
  exists l, handle_response_state e s = block_end (s_pidx s) e (set_s_logs l (set_s_input (mk_pdata (Some a) None (k + blen q) cb)
    (set_s_txs (tx_set (s_pidx s) (add_headers SResp (map ph_of ls) t) (s_txs s)) (set_s_resp (set_d_consumed (k + blen q) (set_d_header None (s_resp s))) s)))).
Proof.
  intros G Nl T Hc D St Hh R Nq E. unfold handle_response_state. unfold bind at 1, get_d at 1. cbn [s_dir]. rewrite D.
  unfold response_headers. unfold bind at 1, get at 1. rewrite (rlive_closed_eqb _ St), Hh.
  unfold bind at 1, upd_d at 1, modify at 1. unfold bind at 1, input at 1.
  match goal with |- context [pd_as_slice (s_input ?z)] => change (s_input z) with (s_input s) end. rewrite (rest_slice _ _ _ _ _ R), (rest_pd_len _ _ _ _ _ R).
  set (data := match p with Some h => h ++ q ++ tail | None => q ++ tail end).
  assert (E2 : data = block_text ls ++ [13; 10] ++ tail) by (unfold data; destruct p; rewrite ?app_assoc in *; cbn [app opt_text] in E; rewrite ?E; reflexivity).
  assert (Lq : blen (q ++ tail) = blen q + blen tail) by (unfold blen; rewrite app_length; lia).
  assert (Lq0 : 0 < blen q) by (destruct q; [congruence|unfold blen; cbn; lia]).
  clearbody data. subst data.
  unfold bind at 1, parse_headers. unfold bind at 1. rewrite (need_tx_get SResp _ _ t) by (destruct s; exact T). cbn [x_dir]. rewrite Hc.
  destruct Nl as [[Nl Ha] | [-> ->]].
  - rewrite h_headers_block by assumption. unfold bind at 1.
    match goal with |- context [for_each _ _ e ?z] => destruct (add_headers_eval SResp (map ph_of ls) e z t) as [l El]; [destruct s; exact T|]; rewrite El; clear El end.
    unfold ret at 1. cbn [orb]. replace (blen tail =? blen (block_text ls ++ [13; 10] ++ tail)) with false.
    2:{ symmetry. apply N.eqb_neq. unfold blen. rewrite !app_length. cbn [length]. lia. }
    cbn [andb orb]. rewrite Lq. replace (blen tail <=? blen q + blen tail) with true by (symmetry; lia). replace (blen q + blen tail - blen tail) with (blen q) by lia. cbn [when].
    exists l. destruct R as (I & _ & _). destruct s as [rq rs oe cc ci ri pi txs cf si so tr lg inp]. destruct rs as [d1 d2 d3 d4 d5 d6 d7 d8 d9 d10]. cbn in *. subst. reflexivity.
  - change (h_headers SResp false (block_text [] ++ [13; 10] ++ [])) with (h_headers SResp false [13; 10]). change (block_text [] ++ [13; 10] ++ []) with [13; 10].
    replace (match h_headers SResp false [13; 10] with Some (POk remaining (hs, eoh)) => _ | Some _ => _ | None => _ end) with (ret ([13; 10], false) : M (bytes * bool)) by (vm_compute; reflexivity).
    unfold ret at 1. change (blen [13; 10] =? blen [13; 10]) with true. change (bytes_eqb [13; 10] crlf) with true. cbn [orb andb].
    rewrite Lq. change (blen []) with 0. rewrite N.add_0_r. exists (s_logs s). unfold add_headers. cbn [map fold_left]. rewrite tx_set_same by exact T.
    destruct R as (I & _ & _). destruct s as [rq rs oe cc ci ri pi txs cf si so tr lg inp]. destruct rs as [d1 d2 d3 d4 d5 d6 d7 d8 d9 d10]. cbn in *. subst. reflexivity.
Qed.
(** Part of a block: [ls] are complete, [q'] is left pending. *)
Definition rleft (ls : list hline) (q : bytes) : Prop := pending SResp q \/ (ls = [] /\ (q = [] \/ q = [13])).
Lemma rleft_partial ls q : Forall good_hline ls -> rleft ls q ->
  match h_headers SResp false (block_text ls ++ q) with
  | Some (POk r (hs, eoh)) => r = q /\ hs = map ph_of ls /\ eoh = false
  | Some _ => ls = []
  | None => False
  end.
Proof.
  intros G [P | [-> [-> | ->]]]; [rewrite h_headers_partial by assumption; destruct ls; [reflexivity|auto]| |]; vm_compute; auto.
Qed.
Lemma rleft_no_eol ls q : rleft ls q -> bytes_eqb q crlf || bytes_eqb q [10] = false.
Proof.
  intros [P | [-> [-> | ->]]]; [|reflexivity|reflexivity]. destruct P as [l q Hl Hq Ne | [=]].
  assert (exists x m, q = x :: m /\ token_byte x) as (x & m & -> & Hx).
  { destruct Hl as (H1 & H2 & _). unfold line_prefix, hl_text in Hq. destruct (hl_name l) as [|x n]; [easy|]. inversion H2; subst.
    destruct q as [|y r]; [easy|]. exists y, r. split; [reflexivity|]. destruct Hq as [(q2 & E) | (_ & E)]; cbn in E; injection E as E _; now subst. }
  apply token_not in Hx. unfold crlf. cbn [bytes_eqb]. destruct (x =? 13) eqn:E1; [lia|]. destruct (x =? 10) eqn:E2; [lia|]. reflexivity.
Qed.
Lemma rs_headers_part e C s a ls tr p q q' k i t h : yes e -> Forall good_hline ls -> rmile StHeaders (Some h) [] p i t tr C s ->
  t_hpc (x_resp t) = false -> rest_of a q k k s -> opt_text p ++ q = block_text ls ++ q' -> rleft ls q' -> blen q' <= c_field_limit (e_cfg e) ->
  exists s', rruns e s s' /\ rmile StHeaders (Some h) [] (Some q') i (add_headers SResp (map ph_of ls) t) ((mk_ev h i (PlData q), SOk) :: tr) C s'.
Proof.
  intros Y G [M1 M2 M3 M4 M5 M6 M7 M8 M9 M10 M11 M12] Hc R E Lo Lim. rewrite <- M7 in M8.
  assert (X : exists l, handle_state SResp e s = (RErr SDataBuffer, set_s_logs l (set_s_input (mk_pdata (Some a) None (k + blen q) k)
     (set_s_txs (tx_set (s_pidx s) (add_headers SResp (map ph_of ls) t) (s_txs s)) (set_s_resp (set_d_header (Some q') (set_d_consumed (k + blen q) (s_resp s))) s))))).
  { unfold handle_state, by_side, handle_response_state. unfold bind at 1, get_d at 1. cbn [s_dir]. rewrite M1.
    unfold response_headers. unfold bind at 1, get at 1. rewrite (rlive_closed_eqb _ M3), M6.
    unfold bind at 1, upd_d at 1, modify at 1. unfold bind at 1, input at 1.
    match goal with |- context [pd_as_slice (s_input ?z)] => change (s_input z) with (s_input s) end. rewrite (rest_slice _ _ _ _ _ R), (rest_pd_len _ _ _ _ _ R).
    replace (match p with Some h => h ++ q | None => q end) with (block_text ls ++ q') by (rewrite <- E; destruct p; reflexivity).
    unfold bind at 1, parse_headers. unfold bind at 1. rewrite (need_tx_get SResp _ _ t) by (destruct s; exact M8). cbn [x_dir]. rewrite Hc.
    pose proof (rleft_partial ls q' G Lo) as Hp. pose proof (rleft_no_eol _ _ Lo) as Ne. destruct R as (I & L1 & L2). clear E.
    assert (Ck : forall z, d_buf (s_resp z) = [] -> d_header (s_resp z) = None -> check_buffer_limit SResp (blen q') e z = (ROk tt, z)).
    { intros z Hb Hh. unfold check_buffer_limit. destruct (_ =? 0); [reflexivity|]. unfold bind at 1, get_d at 1. unfold bind at 1, ask at 1. cbn [s_dir]. rewrite Hb, Hh. change (blen []) with 0.
      destruct (_ <? _) eqn:Ec; [lia|]. reflexivity. }
    destruct (h_headers SResp false (block_text ls ++ q')) as [[r [hs eoh]| |]|]; [|subst ls|subst ls|contradiction].
    - destruct Hp as (-> & -> & ->). unfold bind at 1. match goal with |- context [for_each _ _ e ?z] => destruct (add_headers_eval SResp (map ph_of ls) e z t) as [l El]; [destruct s; exact M8|]; rewrite El; clear El end.
      unfold ret at 1. cbn [orb]. rewrite Ne, Bool.andb_false_r. exists l.
      destruct s as [rq rs oe cc ci ri pi txs cf si so tr' lg inp]. destruct rs as [d1 d2 d3 d4 d5 d6 d7 d8 d9 d10]. cbn in *. subst. ev. rewrite Ck by reflexivity. ev. reflexivity.
    - unfold ret at 1. cbn [block_text map concat app]. cbn [orb]. rewrite Ne, Bool.andb_false_r. unfold add_headers. cbn [map fold_left].
      exists (s_logs s). destruct s as [rq rs oe cc ci ri pi txs cf si so tr' lg inp]. destruct rs as [d1 d2 d3 d4 d5 d6 d7 d8 d9 d10]. cbn in *. subst.
      ev. rewrite Ck by reflexivity. ev. rewrite tx_set_same by exact M8. reflexivity.
    - unfold ret at 1. cbn [block_text map concat app]. cbn [orb]. rewrite Ne, Bool.andb_false_r. unfold add_headers. cbn [map fold_left].
      exists (s_logs s). destruct s as [rq rs oe cc ci ri pi txs cf si so tr' lg inp]. destruct rs as [d1 d2 d3 d4 d5 d6 d7 d8 d9 d10]. cbn in *. subst.
      ev. rewrite Ck by reflexivity. ev. rewrite tx_set_same by exact M8. reflexivity. }
  destruct X as [l H]. apply (step_err SResp) in H; [|exact (rest_no_gap _ _ _ _ _ R)]. pose proof (rest_len _ _ _ _ _ R) as Ll. destruct R as (I & L1 & L2).
  erewrite (after_step_recv SResp) in H; [|exact Y|now right|cbn; exact M4|cbn; apply (tx_get_set_eq _ _ _ _ M8)|reflexivity|lia|lia].
  eexists. split; [apply rruns_last; exact H|]. fold (between a k (k + blen q)). rewrite (between_app a k q []) by (rewrite app_nil_r; exact L2).
  rewrite M7 in *. constructor; cbn; try assumption; try reflexivity.
  - now left.
  - apply (tx_get_set_eq _ _ _ _ M8).
  - rewrite ?M7, M9; reflexivity.
  - intros j Hj. rewrite tx_get_set_other by congruence. now apply M11.
  - now apply stocked_set.
Qed.
(** The header block is complete; its last piece is handed over by the next step. *)
Lemma rs_headers e C s a ls tr p q tail k i t : Forall good_hline ls -> ends_block ls tail -> rmile StHeaders (Some HResponseHeaderData) [] p i t tr C s ->
  t_hpc (x_resp t) = false -> t_prog (x_resp t) = PHeaders -> rest_of a (q ++ tail) k k s -> q <> [] -> opt_text p ++ q = block_text ls ++ [13; 10] ->
  exists s', step SResp e s = (ROk None, s') /\ rest_of a tail (k + blen q) k s' /\ skipn (N.to_nat k) a = q ++ tail /\
    rmile StBodyDetermine (Some HResponseHeaderData) [] None i (add_headers SResp (map ph_of ls) t) tr C s'.
Proof.
  intros G Nl [M1 M2 M3 M4 M5 M6 M7 M8 M9 M10 M11 M12] Hc Pg R Nq E. rewrite <- M7 in M8.
  destruct (rblock_eval e s t a ls p q tail k k G Nl M8 Hc M1 M3 M6 R Nq E) as [l H].
  destruct (rest_skip _ _ _ _ _ _ R) as [L1 L2]. pose proof R as (_ & _ & Sk). rewrite M7 in *.
  unfold block_end in H. unfold bind at 1 in H. rewrite (the_tx_get SResp _ _ (add_headers SResp (map ph_of ls) t)) in H by (cbn; rewrite M7; apply (tx_get_set_eq _ _ _ _ M8)).
  replace (t_prog (x_resp (add_headers SResp (map ph_of ls) t))) with PHeaders in H by (destruct (add_headers_rgains (map ph_of ls) t) as ((rr & hh & Eq) & _); rewrite Eq; exact (eq_sym Pg)).
  change (prog_eqb PHeaders PHeaders) with true in H. cbv iota in H. change (handle_response_state e s) with (handle_state SResp e s) in H.
  apply (step_next SResp) in H; [|exact (rest_no_gap _ _ _ _ _ R)|exact (rlive_not_tunnel _ M3)|discriminate].
  eexists. split; [exact H|]. split; [split; [reflexivity|split; assumption]|]. split; [exact Sk|]. constructor; cbn; try assumption; try reflexivity.
  - apply (tx_get_set_eq _ _ _ _ M8).
  - intros j Hj. rewrite tx_get_set_other by congruence. now apply M11.
  - now apply stocked_set.
Qed.
