(** The head of a well-formed request, from an idle request parser to the beginning of its body. *)
From Verif Require Import Base Spec SpecTx SpecMsg ModelUtil ModelHeaders ModelState ModelTx ModelConn SpecConn ProofsBase ProofsParsers ProofsHeaders ProofsTx ProofsConn ProofsCore ProofsHist ProofsEval ProofsBody.

(** * Logging *)
Lemma logs_eval lg e s : exists l, logs lg e s = (ROk tt, set_s_logs l s).
Proof.
  unfold logs. revert s; induction lg as [|m lg IH]; intro s; [exists (s_logs s); destruct s; reflexivity|].
  cbn [for_each]. unfold bind, log at 1. destruct (_ <=? _).
  - destruct (IH (set_s_logs (mk_log (lg_level m) (lg_code m) :: s_logs s) s)) as [l ->]. exists l. destruct s; reflexivity.
  - apply IH.
Qed.
Lemma mod_tx_log_get sd f e s t : tx_get (s_idx sd s) (s_txs s) = Some t ->
  exists l, mod_tx_log sd f e s = (ROk tt, set_s_logs l (set_s_txs (tx_set (s_idx sd s) (fst (f t)) (s_txs s)) s)).
Proof.
  intro H. unfold mod_tx_log. unfold bind at 1. rewrite (the_tx_get _ _ _ _ H). destruct (f t) as [t' lg]. unfold bind, get, put_tx, modify. cbn [fst].
  apply logs_eval.
Qed.
Lemma add_headers_eval sd hs : forall e s t, tx_get (s_idx sd s) (s_txs s) = Some t ->
  exists l, for_each (fun h => mod_tx_log sd (add_header sd h)) hs e s =
    (ROk tt, set_s_logs l (set_s_txs (tx_set (s_idx sd s) (add_headers sd hs t) (s_txs s)) s)).
Proof.
  induction hs as [|h hs IH]; intros e s t H; cbn [for_each add_headers fold_left].
  - exists (s_logs s). rewrite tx_set_same by exact H. destruct s; reflexivity.
  - destruct (mod_tx_log_get sd (add_header sd h) e s t H) as [l E]. unfold bind. rewrite E.
    destruct (IH e (set_s_logs l (set_s_txs (tx_set (s_idx sd s) (fst (add_header sd h t)) (s_txs s)) s)) (fst (add_header sd h t))) as [l2 E2].
    { destruct sd; cbn; apply (tx_get_set_eq _ _ _ _ H). }
    rewrite E2. exists l2. destruct s, sd; cbn; rewrite tx_set_set; reflexivity.
Qed.
Lemma tx_set_put i t u l : tx_set i t (tx_put i u l) = tx_put i t l.
Proof.
  induction l as [|[j v] l IH]; cbn [tx_put tx_set]; [now rewrite N.eqb_refl|].
  destruct (i =? j) eqn:E; cbn [tx_set]; rewrite ?N.eqb_refl; [reflexivity|]. destruct (i <? j); cbn [tx_set]; rewrite ?N.eqb_refl, ?E; [reflexivity|]. now rewrite IH.
Qed.

(** * The request line *)
Lemma span_all (p : N -> bool) l r : Forall (fun c => p c = true) l -> (forall c r', r = c :: r' -> p c = false) -> span p (l ++ r) = (l, r).
Proof.
  intros H Hr. induction H as [|c l Hc H IH]; cbn [app span].
  - destruct r as [|c r]; [reflexivity|]. cbn [span]. now rewrite (Hr c r eq_refl).
  - now rewrite Hc, IH.
Qed.
Definition visible (c : N) : Prop := 33 <= c <= 126.
Lemma visible_space c : visible c -> is_space c = false.
Proof. unfold visible, is_space. lia. Qed.
Lemma method_visible m : In m known_methods -> m <> [] /\ Forall visible m.
Proof.
  intro H. assert (Q : forallb (fun m => negb (is_nil m) && forallb (fun c => (33 <=? c) && (c <=? 126)) m) known_methods = true) by (vm_compute; reflexivity).
  rewrite forallb_forall in Q. specialize (Q m H). apply andb_true_iff in Q as [Q1 Q2]. split; [now destruct m|].
  rewrite forallb_forall in Q2. apply Forall_forall. intros c Hc. specialize (Q2 c Hc). unfold visible. lia.
Qed.
Lemma method_new_known m : In m known_methods -> method_new m = MKnown m.
Proof.
  intro H. unfold method_new. replace (existsb (bytes_eqb m) known_methods) with true; [reflexivity|]. symmetry. apply existsb_exists.
  exists m. split; [exact H|]. now apply bytes_eqb_eq.
Qed.

(** [good_request] without its condition on the method. *)
Definition fair_request (r : request) : Prop :=
  In (rq_method r) known_methods /\ rq_target r <> [] /\ Forall (fun c => 33 <= c <= 126) (rq_target r) /\ Forall good_hline (rq_lines r).
Lemma good_fair r : good_request r -> fair_request r.
Proof. intros (H1 & _ & H2 & H3 & H4). repeat (split; [assumption|]). assumption. Qed.
Coercion good_fair : good_request >-> fair_request.
Definition line_of (r : request) : bytes := rq_method r ++ [32] ++ rq_target r ++ s2b " HTTP/1.1".
Definition with_line (r : request) (t : tx) : tx :=
  upd_dir SReq (fun d => set_t_proton ProtoV1_1 (set_t_proto (Some (s2b "HTTP/1.1")) d))
   (set_x_uri (Some (rq_target r)) (set_x_methodn (MKnown (rq_method r)) (set_x_method (Some (rq_method r))
     (upd_dir SReq (set_t_line (Some (line_of r))) t)))).
Lemma trimmed_ends a m b x y : m = x :: a -> m = b ++ [y] -> is_space x = false -> is_space y = false -> trimmed m = m.
Proof.
  intros E1 E2 H1 H2. unfold trimmed, trim_start. rewrite E1. cbn [drop_while]. rewrite H1. rewrite <- E1. unfold trim_end.
  apply (drop_while_end_unique is_space m m []); [now rewrite app_nil_r|constructor|]. intros z q E. rewrite E2 in E. apply app_inj_tail in E as [_ <-]. exact H2.
Qed.
Lemma visible_all p l : (forall c, visible c -> p c = true) -> Forall visible l -> Forall (fun c => p c = true) l.
Proof. intros H. apply Forall_impl. exact H. Qed.
Lemma chomp_line r : fair_request r -> chomp (request_line_text r) = line_of r.
Proof.
  intros _. unfold chomp, request_line_text, line_of.
  apply (drop_while_end_unique _ _ _ [13; 10]).
  - rewrite <- !app_assoc. reflexivity.
  - repeat constructor.
  - intros x a H. change (s2b " HTTP/1.1") with (s2b " HTTP/1." ++ [49]) in H. rewrite !app_assoc in H. apply app_inj_tail in H as [_ <-]. reflexivity.
Qed.
Lemma last_visible l x : Forall visible l -> forall b y, x :: l = b ++ [y] -> visible x -> visible y.
Proof.
  intros H b y E Hx. destruct l as [|z l]; [destruct b as [|? [|]]; try discriminate; now injection E as ->|].
  assert (I : In y (x :: z :: l)) by (rewrite E; apply in_or_app; right; now left). destruct I as [<- | I]; [exact Hx|].
  rewrite Forall_forall in H. now apply H.
Qed.
Lemma trimmed_visible l : Forall visible l -> trimmed l = l.
Proof.
  intro H. destruct l as [|x l]; [reflexivity|]. inversion_clear H as [|? ? Hx Hl].
  destruct (exists_last (l := x :: l)) as (b & y & E); [discriminate|].
  apply (trimmed_ends l _ b x y eq_refl E); [now apply visible_space|]. apply visible_space. eapply last_visible; eassumption.
Qed.
Lemma parse_line_good cfg r t : fair_request r -> fst (conn_parse_request_line cfg (line_of r) t) = with_line r t.
Proof.
  intros (H1 & H2 & H3 & _). destruct (method_visible _ H1) as [H4 H5]. unfold conn_parse_request_line.
  assert (V0 : forall c, visible c -> negb (c =? 0) = true) by (intros c Hc; unfold visible in Hc; lia).
  assert (V1 : forall c, visible c -> negb (is_space c) = true) by (intros c Hc; now rewrite (visible_space _ Hc)).
  replace (match c_pers cfg with APACHE_2 => fst (span (fun c => negb (c =? 0)) (line_of r)) | _ => line_of r end) with (line_of r).
  2:{ destruct (c_pers cfg); try reflexivity. rewrite <- (app_nil_r (line_of r)) at 2. rewrite span_all; [reflexivity| |discriminate].
      unfold line_of. apply Forall_app. split; [|constructor; [reflexivity|apply Forall_app; split]].
      - apply (visible_all _ _ V0 H5).
      - apply (visible_all _ _ V0 H3).
      - repeat constructor. }
  replace (span is_space (line_of r)) with (@nil N, line_of r).
  2:{ unfold line_of. destruct (rq_method r) as [|x m]; [congruence|]. inversion_clear H5 as [|? ? Hx Hm]. cbn [app span]. now rewrite (visible_space _ Hx). }
  cbv iota beta. replace (span (fun c => negb (is_space c)) (line_of r)) with (rq_method r, [32] ++ rq_target r ++ s2b " HTTP/1.1").
  2:{ symmetry. apply span_all; [apply (visible_all _ _ V1 H5)|]. intros c r' [= <- _]. reflexivity. }
  cbv iota beta.  replace (span is_space ([32] ++ rq_target r ++ s2b " HTTP/1.1")) with ([32], rq_target r ++ s2b " HTTP/1.1").
  2:{ symmetry. rewrite (span_all is_space); [reflexivity|repeat constructor|]. intros c r' E. destruct (rq_target r) as [|x m]; [congruence|].
      injection E as <- _. apply visible_space. now inversion_clear H3. }
  cbn [is_nil negb andb]. 
  assert (N1 : rq_target r ++ s2b " HTTP/1.1" <> []) by (destruct (rq_target r); discriminate).
  replace (is_nil (rq_target r ++ s2b " HTTP/1.1")) with false by (destruct (rq_target r); [congruence|reflexivity]).
  assert (T : trimmed (rq_target r ++ s2b " HTTP/1.1") = rq_target r ++ s2b " HTTP/1.1").
  { destruct (rq_target r) as [|x m] eqn:E; [congruence|]. inversion_clear H3 as [|? ? Hx Hm].
    apply (trimmed_ends (m ++ s2b " HTTP/1.1") _ (x :: m ++ s2b " HTTP/1.") x 49); [reflexivity| |now apply visible_space|reflexivity].
    cbn [app]. rewrite <- app_assoc. reflexivity. }
  rewrite T.
  assert (S1 : split_on_predicate (rq_target r ++ s2b " HTTP/1.1") (allow_space_uri (c_dcfg cfg)) true (fun c => c =? 32) = (rq_target r, s2b "HTTP/1.1")).
  { unfold split_on_predicate. change (s2b " HTTP/1.1") with (32 :: s2b "HTTP/1.1").
    assert (Z : (if allow_space_uri (c_dcfg cfg) then match split_last (fun c => c =? 32) (rq_target r ++ 32 :: s2b "HTTP/1.1") with
                   | Some (a, b) => (a, b) | None => (rq_target r ++ 32 :: s2b "HTTP/1.1", []) end
                 else match split_first (fun c => c =? 32) (rq_target r ++ 32 :: s2b "HTTP/1.1") with
                   | (a, Some b) => (a, b) | (a, None) => (a, []) end) = (rq_target r, s2b "HTTP/1.1")).
    { destruct (allow_space_uri (c_dcfg cfg)).
      - rewrite split_last_app; [reflexivity|reflexivity|repeat constructor].
      - clear -H3. induction H3 as [|x m Hx _ IH]; [reflexivity|]. cbn [app split_first]. replace (x =? 32) with false by (symmetry; lia).
        destruct (split_first (fun c => c =? 32) (m ++ 32 :: s2b "HTTP/1.1")) as [a [b|]]; injection IH as -> ->; reflexivity. }
    rewrite Z. rewrite (trimmed_visible _ H3). reflexivity. }
  rewrite S1. cbv iota beta. replace (length (rq_target r) =? length (rq_target r ++ s2b " HTTP/1.1"))%nat with false.
  2:{ symmetry. apply Nat.eqb_neq. rewrite app_length. cbn. lia. }
  cbn [andb]. change (is_nil (s2b "HTTP/1.1")) with false. cbv iota.
  destruct (parse_protocol_log (s2b "HTTP/1.1")) as [pn lg2] eqn:P. vm_compute in P. injection P as <- <-.
  cbn [fst]. rewrite (method_new_known _ H1). reflexivity.
Qed.

(** * The steps *)
Definition start_tx : tx := upd_dir SReq (set_t_prog PLine) tx_new.
Lemma idle_eval e s : yes e -> d_state (s_req s) = StIdle -> pd_is_empty (s_input s) = false ->
  tx_get (s_ridx s) (s_txs s) = Some tx_new \/ (tx_get (s_ridx s) (s_txs s) = None /\ N.of_nat (length (s_txs s)) < c_max_tx (e_cfg e)) ->
  handle_request_state e s = (ROk tt, push HRequestStart (s_ridx s) PlNone
    (set_s_txs (match tx_get (s_ridx s) (s_txs s) with Some _ => tx_set | None => tx_put end (s_ridx s) start_tx (s_txs s))
      (set_s_chunk_idx (s_chunk_count s) (set_s_req (set_d_state StLine (set_d_left None (set_d_clen None (s_req s)))) s)))).
Proof.
  intros Y D P F. unfold handle_request_state. unfold bind at 1, get_d at 1. cbn [s_dir]. rewrite D. unfold request_idle.
  unfold bind at 1, input at 1. unfold bind at 1, get_d at 1. rewrite P. cbn [andb].
  destruct s as [rq rs oe cc ci ri pi txs cf si so tr lg inp]. destruct rq as [d1 d2 d3 d4 d5 d6 d7 d8 d9 d10]. cbn in D, P, F. subst.
  unfold state_request_start. unfold bind at 1, upd_d at 1, modify at 1. unfold bind at 1, modify at 1. unfold ignore, bind at 1, set_state, upd_d, modify at 1.
  unfold bind at 1, need_tx. unfold bind at 1, cur_tx. cbn [s_dir set_s_dir s_req set_s_req s_idx s_ridx s_txs set_s_chunk_idx].
  destruct F as [T | [T M]]; rewrite T.
  - unfold ret at 1. unfold bind at 1, set_progress, mod_txd. erewrite (mod_tx_get SReq); [|cbn; exact T].
    unfold bind at 1, get at 1. erewrite tx_hook_yes; [|exact Y|cbn; apply (tx_get_set_eq _ _ _ _ T)]. reflexivity.
  - destruct (_ <=? _) eqn:Em; [apply N.leb_le in Em; cbn in M; lia|]. unfold ret at 1.
    unfold bind at 1, set_progress, mod_txd. erewrite (mod_tx_get SReq); [|cbn; apply tx_get_put].
    unfold bind at 1, get at 1. erewrite tx_hook_yes; [|exact Y|cbn; rewrite tx_set_put; apply tx_get_put].
    cbn. rewrite tx_set_put. reflexivity.
Qed.
(** What the parts of a request line that are looked at later keep. *)
Definition keeps (t t' : tx) : Prop :=
  x_req t' = x_req t /\ reply_part t' = reply_part t /\ x_method t' = x_method t /\ x_methodn t' = x_methodn t /\ x_uri t' = x_uri t /\ x_is09 t' = x_is09 t.
Lemma keeps_trans a b c : keeps a b -> keeps b c -> keeps a c.
Proof. intros (? & ? & ? & ? & ? & ?) (? & ? & ? & ? & ? & ?). repeat split; congruence. Qed.
Lemma keeps_uri ip6 cfg t t' : parse_request_uri ip6 cfg t = Some t' -> keeps t t'.
Proof.
  unfold parse_request_uri. intro H. destruct (if is_method (x_methodn t) "CONNECT" then _ else _) as [[raw fl]|]; [|discriminate]. injection H as <-.
  destruct (is_some _); [repeat split; reflexivity|]. unfold normalize_parsed_uri.
  destruct (normalized_username _ _ _). destruct (normalized_password _ _ _). destruct (normalized_hostname _ _ _). destruct (normalized_port _ _).
  destruct (normalized_fragment _ _ _). destruct (normalized_path _ _ _ _) as [[? ?] ?]. repeat split; reflexivity.
Qed.
Lemma keeps_hostname ip6 t : keeps t (check_uri_hostname ip6 t).
Proof. unfold check_uri_hostname. destruct (parsed_hostname t); [destruct (validate_hostname _ _)|]; repeat split; reflexivity. Qed.
Lemma keeps_norm cfg t : keeps t (fst (store_normalized_uri cfg t)).
Proof.
  unfold store_normalized_uri. destruct (x_parsed t); [|repeat split; reflexivity]. destruct (generate_normalized_uri _ _) as [[? ?] ?]. repeat split; reflexivity.
Qed.
Lemma uri_parsed ip6 cfg t m t' tg : parse_request_uri ip6 cfg t = Some t' -> x_methodn t = MKnown m -> m <> s2b "CONNECT" -> x_parsed t = None -> x_uri t = Some tg ->
  x_raw t' = Some (parse_uri uri_default tg) /\ x_host t' = x_host t /\ x_port t' = x_port t /\
  (u_hostname (parse_uri uri_default tg) = None -> parsed_hostname t' = None) /\ (u_port (parse_uri uri_default tg) = None -> parsed_port_number t' = None) /\
  query_params cfg t' = match u_query (parse_uri uri_default tg) with Some q => up_params (parse_complete (urlenp_new cfg) q) | None => [] end.
Proof.
  intros H E1 E2 P U. unfold parse_request_uri in H. replace (is_method (x_methodn t) "CONNECT") with false in H.
  2:{ rewrite E1. cbn [is_method]. symmetry. destruct (bytes_eqb m _) eqn:B; [|reflexivity]. apply bytes_eqb_eq in B. congruence. }
  rewrite U in H. cbn [is_some] in H. injection H as <-. cbn [x_parsed set_x_raw set_x_flags]. rewrite P. set (raw := parse_uri uri_default tg). unfold normalize_parsed_uri.
  set (u1 := normalized_username _ _ _). destruct u1 as [us f1]. set (u2 := normalized_password _ _ _). destruct u2 as [pw f2].
  destruct (normalized_hostname cfg raw f2) as [ho f3] eqn:Eh. destruct (normalized_port raw f3) as [po f4] eqn:Ep.
  destruct (normalized_fragment _ _ _) as [fr f5]. destruct (normalized_path _ _ _ _) as [[pa f6] ex]. cbn.
  repeat split; intro Z; [unfold normalized_hostname in Eh; rewrite Z in Eh|unfold normalized_port in Ep; rewrite Z in Ep]; unfold parsed_hostname, parsed_port_number; cbn; congruence.
Qed.
(** What the request line of [r] makes of a new transaction, and the parameters it reports. *)
Definition sent_params (cfg : config) (tg : bytes) : list (bytes * bytes) :=
  if c_parse_urlenc cfg && c_param_proc cfg
  then match u_query (parse_uri uri_default tg) with Some q => up_params (parse_complete (urlenp_new (c_dcfg cfg)) q) | None => [] end else [].
Definition x_where (t : tx) : option uri * option bytes * option N := (x_raw t, x_host t, x_port t).
Record addressed (t : tx) (tg : bytes) (t' : tx) : Prop := {
  ad_raw : x_raw t' = Some (parse_uri uri_default tg); ad_host : x_host t' = x_host t; ad_port : x_port t' = x_port t;
  ad_uhost : u_hostname (parse_uri uri_default tg) = None -> parsed_hostname t' = None;
  ad_uport : u_port (parse_uri uri_default tg) = None -> parsed_port_number t' = None }.
Lemma addressed_hostname ip6 t tg t' : addressed t tg t' -> addressed t tg (check_uri_hostname ip6 t').
Proof. intro A. unfold check_uri_hostname. destruct (parsed_hostname t'); [destruct (validate_hostname _ _)|]; destruct A; constructor; assumption. Qed.
Lemma addressed_norm cfg t tg t' : addressed t tg t' -> addressed t tg (fst (store_normalized_uri cfg t')).
Proof.
  intro A. unfold store_normalized_uri. destruct (x_parsed t'); [|exact A]. destruct (generate_normalized_uri _ _) as [[? ?] ?]. destruct A. constructor; assumption.
Qed.
Lemma uri_good ip6 cfg t m : x_methodn t = MKnown m -> m <> s2b "CONNECT" -> x_parsed t = None -> exists t', parse_request_uri ip6 cfg t = Some t'.
Proof.
  intros E H P. unfold parse_request_uri. replace (is_method (x_methodn t) "CONNECT") with false.
  2:{ rewrite E. cbn [is_method]. symmetry. destruct (bytes_eqb m _) eqn:B; [|reflexivity]. apply bytes_eqb_eq in B. congruence. }
  destruct (x_uri t); eexists; reflexivity.
Qed.
Definition param_events (i : N) (ps : list (bytes * bytes)) : list (event * status) :=
  rev (map (fun nv => (mk_ev HParam i (PlParam (fst nv) (snd nv)), SOk)) ps).
Lemma params_eval i ps : forall e s, yes e ->
  for_each (fun nv => let* r := call HParam i (PlParam (fst nv) (snd nv)) in match r with SOk => ret tt | _ => fail r end) ps e s =
  (ROk tt, set_s_trace (param_events i ps ++ s_trace s) s).
Proof.
  induction ps as [|p ps IH]; intros e s Y; cbn [for_each]; [destruct s; reflexivity|].
  unfold bind at 1, bind at 1, call at 1. rewrite Y. unfold ret at 1. rewrite IH by exact Y. unfold param_events. cbn [map rev]. 
  destruct s. cbn. rewrite <- app_assoc. reflexivity.
Qed.
Definition told_params (cfg : config) (t : tx) : list (bytes * bytes) := if c_parse_urlenc cfg && c_param_proc cfg then query_params (c_dcfg cfg) t else [].
Definition stored (e : env) (t : tx) : tx := fst (store_normalized_uri (e_cfg e) (check_uri_hostname (e_ip6 e) t)).
Lemma state_line_any e s t t1 : yes e -> tx_get (s_ridx s) (s_txs s) = Some t -> parse_request_uri (e_ip6 e) (c_dcfg (e_cfg e)) t = Some t1 ->
  exists l, state_request_line e s = (ROk tt, set_s_logs l (set_s_trace
    ((mk_ev HRequestLine (s_ridx s) PlNone, SOk) :: (mk_ev HRequestUriNormalize (s_ridx s) PlNone, SOk) :: param_events (s_ridx s) (told_params (e_cfg e) t1) ++ s_trace s)
    (set_s_txs (tx_set (s_ridx s) (stored e t1) (s_txs s)) (set_s_req (set_d_state StProtocol (s_req s)) s)))).
Proof.
  intros Y H E1. unfold state_request_line. unfold bind at 1. rewrite (need_tx_get SReq _ _ _ H).
  unfold bind at 1, tx_parse_request_line. unfold bind at 1, ask at 1. unfold bind at 1. rewrite (the_tx_get SReq _ _ _ H). rewrite E1.
  unfold bind at 1, get at 1. unfold bind at 1, put_tx, modify.
  set (ps := told_params (e_cfg e) t1).
  set (s1 := set_s_txs _ s).
  assert (W : when (c_parse_urlenc (e_cfg e) && c_param_proc (e_cfg e))
     (for_each (fun nv => let* r := call HParam (s_ridx s) (PlParam (fst nv) (snd nv)) in match r with SOk => ret tt | _ => fail r end) (query_params (c_dcfg (e_cfg e)) t1)) e s1
     = (ROk tt, set_s_trace (param_events (s_ridx s) ps ++ s_trace s1) s1)).
  { unfold ps, told_params. destruct (_ && _); cbn [when]; [apply params_eval; exact Y|]. unfold ret. unfold s1. destruct s; reflexivity. }
  unfold bind at 1. rewrite W. clear W.
  assert (H1 : tx_get (s_ridx s) (s_txs s1) = Some t1) by apply (tx_get_set_eq _ _ _ _ H).
  rewrite (mod_tx_get SReq _ _ _ t1) by exact H1.
  unfold stored. set (t2 := check_uri_hostname (e_ip6 e) t1). unfold s1.
  destruct s as [rq rs oe cc ci ri pi txs cf si so tr lg inp]. cbn [s_ridx s_txs] in *. clear H1 s1. ev. rewrite tx_set_set.
  assert (H2 : tx_get ri (tx_set ri t2 txs) = Some t2) by apply (tx_get_set_eq _ _ _ _ H).
  rewrite (tx_hook_yes e _ _ _ t2 Y) by exact H2. unfold push. ev. rewrite (tx_hook_yes e _ _ _ t2 Y) by exact H2. unfold push. ev.
  match goal with |- context [mod_tx_log SReq ?f e ?z] => destruct (mod_tx_log_get SReq f e z t2 H2) as [l E2]; rewrite E2; clear E2 end.
  exists l. ev. rewrite tx_set_set. reflexivity.
Qed.
Lemma uri_told e t m t1 tg : parse_request_uri (e_ip6 e) (c_dcfg (e_cfg e)) t = Some t1 -> x_methodn t = MKnown m -> m <> s2b "CONNECT" -> x_parsed t = None -> x_uri t = Some tg ->
  keeps t (stored e t1) /\ addressed t tg (stored e t1) /\ told_params (e_cfg e) t1 = sent_params (e_cfg e) tg.
Proof.
  intros E1 M1 M2 P Ug. pose proof (keeps_uri _ _ _ _ E1) as K1. destruct (uri_parsed _ _ _ _ _ _ E1 M1 M2 P Ug) as (A1 & A2 & A3 & A4 & A5 & A6). split; [|split].
  - eapply keeps_trans; [exact K1|]. eapply keeps_trans; [apply keeps_hostname|]. apply keeps_norm.
  - apply addressed_norm, addressed_hostname. constructor; assumption.
  - unfold told_params, sent_params. now rewrite A6.
Qed.
Lemma line_not_ignorable pers r : fair_request r -> is_line_ignorable pers (request_line_text r) = false.
Proof.
  intros (H1 & _). destruct (method_visible _ H1) as [H4 H5]. unfold is_line_ignorable, is_line_terminator.
  destruct (rq_method r) as [|x m] eqn:E; [congruence|]. inversion_clear H5 as [|? ? Hx Hm].
  assert (Es : exists y z w, request_line_text r = x :: y :: z :: w).
  { unfold request_line_text. rewrite E. destruct m as [|y [|z m]]; [destruct (rq_target r)| |]; cbn [app]; eexists _, _, _; reflexivity. }
  destruct Es as (y & z & w & ->).
  replace (match pers with IIS_5_0 => is_line_whitespace (x :: y :: z :: w) | _ => false end) with false.
  2:{ destruct pers; try reflexivity. unfold is_line_whitespace. cbn [forallb]. now rewrite (visible_space _ Hx). }
  unfold is_line_empty. cbn [bytes_eqb]. rewrite !andb_false_r. reflexivity.
Qed.
Lemma line_no_lf r : fair_request r -> exists l, request_line_text r = l ++ [10] /\ ~ In 10 l.
Proof.
  intros (H1 & H2 & H3 & _). destruct (method_visible _ H1) as [H4 H5]. exists (rq_method r ++ [32] ++ rq_target r ++ s2b " HTTP/1.1" ++ [13]).
  split; [unfold request_line_text; rewrite <- !app_assoc; reflexivity|]. rewrite Forall_forall in H3, H5. intro I.
  apply in_app_or in I as [I|I]; [specialize (H5 _ I); unfold visible in H5; lia|]. apply in_app_or in I as [[I|[]]|I]; [discriminate|].
  apply in_app_or in I as [I|I]; [specialize (H3 _ I); cbn in H3; lia|]. vm_compute in I. intuition discriminate.
Qed.
Lemma rest_skip a q tail k cb s : rest_of a (q ++ tail) k cb s -> k + blen q <= blen a /\ skipn (N.to_nat (k + blen q)) a = tail.
Proof.
  intro R. pose proof (rest_len _ _ _ _ _ R) as L. destruct R as (_ & H & E). unfold blen in *. rewrite app_length in L. split; [lia|].
  rewrite N2Nat.inj_add, Nat2N.id. rewrite <- (firstn_skipn (N.to_nat k) a), E.
  rewrite skipn_app, firstn_length. rewrite skipn_all2 by (rewrite firstn_length; lia). cbn [app].
  replace (N.to_nat k + length q - Init.Nat.min (N.to_nat k) (length a))%nat with (length q) by lia.
  rewrite skipn_app, skipn_all. replace (length q - length q)%nat with 0%nat by lia. reflexivity.
Qed.
Lemma line_split r p q : fair_request r -> p ++ q = request_line_text r -> q <> [] -> exists l, q = l ++ [10] /\ ~ In 10 l.
Proof.
  intros G E Nq. destruct (line_no_lf r G) as (l & El & Hl). destruct (exists_last Nq) as (q' & x & ->). rewrite El, app_assoc in E.
  apply app_inj_tail in E as [<- ->]. exists q'. split; [reflexivity|]. intro I. apply Hl, in_or_app. now right.
Qed.
Lemma line_any e s t t1 r a p q tail k cb : yes e -> fair_request r -> d_state (s_req s) = StLine -> d_buf (s_req s) = p -> d_header (s_req s) = None ->
  rest_of a (q ++ tail) k cb s -> p ++ q = request_line_text r -> q <> [] -> blen (request_line_text r) <= c_field_limit (e_cfg e) ->
  tx_get (s_ridx s) (s_txs s) = Some t -> parse_request_uri (e_ip6 e) (c_dcfg (e_cfg e)) (with_line r t) = Some t1 ->
  exists l, handle_request_state e s = (ROk tt, set_s_logs l (set_s_trace
    ((mk_ev HRequestLine (s_ridx s) PlNone, SOk) :: (mk_ev HRequestUriNormalize (s_ridx s) PlNone, SOk) :: param_events (s_ridx s) (told_params (e_cfg e) t1) ++ s_trace s)
    (set_s_txs (tx_set (s_ridx s) (stored e t1) (s_txs s)) (set_s_input (mk_pdata (Some a) None (k + blen q) cb)
      (set_s_req (set_d_state StProtocol (set_d_consumed (k + blen q) (set_d_buf [] (s_req s)))) s))))).
Proof.
  intros Y G D B Hh R E Nq Lim T P. unfold handle_request_state. unfold bind at 1, get_d at 1. cbn [s_dir]. rewrite D.
  unfold request_line. unfold bind at 1, input at 1. unfold bind at 1, get_d at 1.
  assert (S1 : pd_as_slice (s_input s) = q ++ tail) by (destruct R as (-> & Hk & Hr); rewrite pd_slice_at; assumption).
  rewrite S1. destruct (line_split r p q G E Nq) as (q' & Eq & Hq').
  assert (S2 : take_till_lf (q ++ tail) = POk tail q) by (apply take_till_lf_spec; split; [reflexivity|eauto]).
  rewrite S2. clear S1 S2. destruct R as (I & _ & _).
  destruct s as [rq rs oe cc ci ri pi txs cf si so tr lg inp]. destruct rq as [d1 d2 d3 d4 d5 d6 d7 d8 d9 d10]. cbn in D, B, I, T, Hh. subst d3 d4 d8 inp.
  unfold take_buf. ev. rewrite E. unfold request_line_complete, check_buffer_limit.
  assert (Ln : request_line_text r <> []) by (rewrite <- E; destruct p; [now destruct q|discriminate]).
  destruct (blen (request_line_text r) =? 0) eqn:E0; [destruct (request_line_text r); [congruence|discriminate E0]|]. ev.
  replace (blen [] + blen (request_line_text r) + 0) with (blen (request_line_text r)) by (cbn; lia).
  destruct (c_field_limit (e_cfg e) <? blen (request_line_text r)) eqn:E1; [lia|].
  destruct (request_line_text r) as [|b0 bs] eqn:El; [congruence|]. rewrite <- El in *. ev.
  rewrite (need_tx_get SReq _ _ t) by exact T. rewrite (line_not_ignorable _ _ G).
  rewrite (chomp_line _ G).
  match goal with |- context [mod_tx_log SReq ?f e ?z] => destruct (mod_tx_log_get SReq f e z t T) as [l E2] end.
  rewrite (parse_line_good _ _ _ G) in E2. rewrite E2. clear E2. ev.
  match goal with |- context [state_request_line e ?z] => destruct (state_line_any e z (with_line r t) t1 Y) as (l2 & E2) end.
  - cbn. apply (tx_get_set_eq _ _ _ _ T).
  - exact P.
  - exists l2. rewrite E2. ev. rewrite tx_set_set. reflexivity.
Qed.
Lemma line_eval e s t r a p q tail k cb : yes e -> good_request r -> d_state (s_req s) = StLine -> d_buf (s_req s) = p -> d_header (s_req s) = None ->
  rest_of a (q ++ tail) k cb s -> p ++ q = request_line_text r -> q <> [] -> blen (request_line_text r) <= c_field_limit (e_cfg e) ->
  tx_get (s_ridx s) (s_txs s) = Some t -> x_parsed t = None ->
  exists t' ps l, (keeps (with_line r t) t' /\ addressed t (rq_target r) t' /\ ps = sent_params (e_cfg e) (rq_target r)) /\ handle_request_state e s = (ROk tt, set_s_logs l (set_s_trace
    ((mk_ev HRequestLine (s_ridx s) PlNone, SOk) :: (mk_ev HRequestUriNormalize (s_ridx s) PlNone, SOk) :: param_events (s_ridx s) ps ++ s_trace s)
    (set_s_txs (tx_set (s_ridx s) t' (s_txs s)) (set_s_input (mk_pdata (Some a) None (k + blen q) cb)
      (set_s_req (set_d_state StProtocol (set_d_consumed (k + blen q) (set_d_buf [] (s_req s)))) s))))).
Proof.
  intros Y G D B Hh R E Nq Lim T P.
  destruct (uri_good (e_ip6 e) (c_dcfg (e_cfg e)) (with_line r t) (rq_method r) eq_refl ltac:(apply G) P) as [t1 E1].
  destruct (uri_told e (with_line r t) (rq_method r) t1 (rq_target r) E1 eq_refl ltac:(apply G) P eq_refl) as (K & [A1 A2 A3 A4 A5] & K').
  destruct (line_any e s t t1 r a p q tail k cb Y G D B Hh R E Nq Lim T E1) as [l H].
  exists (stored e t1), (told_params (e_cfg e) t1), l. split; [split; [exact K|split; [constructor; assumption|exact K']]|exact H].
Qed.
Lemma protocol_step e s t a rest k cb : tx_get (s_ridx s) (s_txs s) = Some t -> d_state (s_req s) = StProtocol -> d_prev (s_req s) = StProtocol ->
  x_is09 t = false -> d_status (s_req s) <> SsTunnel -> rest_of a rest k cb s ->
  step SReq e s = (ROk None, set_s_input (mk_pdata (Some a) None k k)
    (set_s_txs (tx_set (s_ridx s) (upd_dir SReq (set_t_prog PHeaders) t) (s_txs s))
      (set_s_req (set_d_prev StHeaders (set_d_recv (Some HRequestHeaderData) (set_d_state StHeaders (s_req s)))) s))).
Proof.
  intros T D Dp N9 St (I & _ & _). unfold step. unfold bind at 1, input at 1. rewrite I. unfold bind at 1, get_d at 1. cbn [pd_is_gap pd_gap is_some andb].
  unfold bind at 1, try at 1, handle_state, by_side, handle_request_state. unfold bind at 1, get_d at 1. cbn [s_dir]. rewrite D. unfold request_protocol.
  unfold bind at 1. rewrite (need_tx_get SReq _ _ _ T). rewrite N9. cbn [negb]. unfold bind at 1, set_progress, mod_txd. rewrite (mod_tx_get SReq _ _ _ _ T).
  destruct s as [rq rs oe cc ci ri pi txs cf si so tr lg inp]. destruct rq as [d1 d2 d3 d4 d5 d6 d7 d8 d9 d10]. cbn in *. subst. ev.
  assert (H2 : tx_get ri (tx_set ri (upd_dir SReq (set_t_prog PHeaders) t) txs) = Some (upd_dir SReq (set_t_prog PHeaders) t)) by apply (tx_get_set_eq _ _ _ _ T).
  unfold handle_state_change. destruct d1; try congruence; ev; rewrite (the_tx_get SReq _ _ (upd_dir SReq (set_t_prog PHeaders) t)) by exact H2; ev; reflexivity.
Qed.
(** ** The header block *)
Lemma block_eval e s t a ls p q tail k cb : Forall good_hline ls -> ls <> [] -> tx_get (s_ridx s) (s_txs s) = Some t -> t_hpc (x_req t) = false ->
  d_state (s_req s) = StHeaders -> d_status (s_req s) <> SsClosed -> d_header (s_req s) = p ->
  rest_of a (q ++ tail) k cb s -> q <> [] -> match p with Some b => b | None => [] end ++ q = block_text ls ++ [13; 10] ->
  exists l, handle_request_state e s = state_request_headers e (set_s_logs l (set_s_input (mk_pdata (Some a) None (k + blen q) cb)
    (set_s_txs (tx_set (s_ridx s) (add_headers SReq (map ph_of ls) t) (s_txs s)) (set_s_req (set_d_consumed (k + blen q) (set_d_header None (s_req s))) s)))).
Proof.
  intros G Nl T Hc D St Hh R Nq E. unfold handle_request_state. unfold bind at 1, get_d at 1. cbn [s_dir]. rewrite D.
  unfold request_headers. unfold bind at 1, slice at 1. unfold bind at 1, get_d at 1. cbn [s_dir].
  assert (S1 : pd_as_slice (s_input s) = q ++ tail) by (destruct R as (-> & Hk & Hr); rewrite pd_slice_at; assumption).
  rewrite S1. clear S1. replace (sstate_eqb (d_status (s_req s)) SsClosed) with false by (destruct (d_status (s_req s)); try reflexivity; now elim St).
  rewrite Hh. set (data2 := match p with Some h => h ++ q ++ tail | None => q ++ tail end).
  assert (E2 : data2 = block_text ls ++ [13; 10] ++ tail) by (unfold data2; destruct p; rewrite ?app_assoc in *; cbn [app] in E; rewrite ?E; reflexivity).
  clearbody data2. subst data2. unfold bind at 1, upd_d at 1, modify at 1.
  unfold bind at 1, parse_headers. unfold bind at 1. rewrite (need_tx_get SReq _ _ t) by (destruct s; exact T). cbn [x_dir]. rewrite Hc.
  rewrite h_headers_block by (auto; now left). unfold bind at 1.
  match goal with |- context [for_each _ _ e ?z] => destruct (add_headers_eval SReq (map ph_of ls) e z t) as [l El]; [destruct s; exact T|]; rewrite El; clear El end.
  unfold ret at 1. cbn [orb]. replace (blen tail <? blen (q ++ tail)) with true.
  2:{ symmetry. apply N.ltb_lt. unfold blen. rewrite app_length. destruct q; [congruence|]. cbn [length]. lia. }
  replace (blen (q ++ tail) - blen tail) with (blen q) by (unfold blen; rewrite app_length; lia).
  exists l. destruct R as (I & _ & _). destruct s as [rq rs oe cc ci ri pi txs cf si so tr lg inp]. destruct rq as [d1 d2 d3 d4 d5 d6 d7 d8 d9 d10]. cbn in *. subst. reflexivity.
Qed.
Definition between (a : bytes) (i j : N) : bytes := firstn (N.to_nat (j - i)) (skipn (N.to_nat i) a).
Definition processed (e : env) (s : st) (t : tx) : bool * tx * list logmsg :=
  process_request_headers (c_parse_auth (e_cfg e)) (e_ip6 e) (e_b64 e) (if negb (s_chunk_count s =? s_chunk_idx s) then add_flag MULTI_PACKET_HEAD t else t).
Definition with_decompressors (sd : side) (cfg : config) (t : tx) : tx := set_x_dir sd (fst (initialize_decompressors sd cfg (x_dir sd t))) t.
Lemma headers_done e s t a k cb t' lg : yes e -> tx_get (s_ridx s) (s_txs s) = Some t -> t_prog (x_req t) = PHeaders ->
  s_input s = mk_pdata (Some a) None k cb -> k <= blen a -> cb <= k -> d_recv (s_req s) = Some HRequestHeaderData ->
  processed e s t = (true, t', lg) ->
  exists l, state_request_headers e s = (ROk tt, set_s_logs l (set_s_trace
    ((mk_ev HRequestHeaders (s_ridx s) PlNone, SOk) :: (mk_ev HRequestHeaderData (s_ridx s) (PlData (between a cb k)), SOk) :: s_trace s)
    (set_s_input (mk_pdata (Some a) None k k) (set_s_txs (tx_set (s_ridx s) (with_decompressors SReq (e_cfg e) t') (s_txs s))
      (set_s_req (set_d_state StConnectCheck (set_d_recv None (s_req s))) s))))).
Proof.
  intros Y T Pg I Lk Lc Rc Pr. unfold state_request_headers. unfold bind at 1, receiver_finalize_clear. unfold bind at 1, get_d at 1. cbn [s_dir]. rewrite Rc.
  unfold receiver_send_data. unfold bind at 1, try at 1. unfold bind at 1, input at 1. rewrite I. unfold pd_callback_data. cbn [pd_data pd_pos pd_cb].
  destruct (k <=? blen a) eqn:E1; [|lia]. destruct (cb <=? k) eqn:E2; [|lia]. cbn [andb]. fold (between a cb k).
  unfold processed in Pr. destruct s as [rq rs oe cc ci ri pi txs cf si so tr lg0 inp]. destruct rq as [d1 d2 d3 d4 d5 d6 d7 d8 d9 d10]. cbn in T, I, Rc, Pr. subst d10 inp. ev.
  rewrite (need_tx_get SReq _ _ t) by exact T. ev. rewrite (data_hook_yes e _ _ _ _ Y). unfold push. ev.
  rewrite (need_tx_get SReq _ _ t) by exact T. rewrite Pg. change (prog_rank PHeaders <? prog_rank PHeaders) with false.
  change (prog_rank PLine <=? prog_rank PHeaders) with true. cbv iota.
  ev. destruct (cc =? ci) eqn:Ec; cbn [negb] in Pr; ev.
  - rewrite (the_tx_get SReq _ _ t) by exact T. rewrite Pr. unfold put_tx, modify. ev.
    match goal with |- context [logs lg e ?z] => destruct (logs_eval lg e z) as [l1 El]; rewrite El; clear El end. ev.
    assert (T2 : tx_get ri (tx_set ri t' txs) = Some t') by apply (tx_get_set_eq _ _ _ _ T).
    rewrite (tx_hook_yes e _ _ _ t' Y) by exact T2. unfold push, init_decompressors. ev. rewrite (need_tx_get SReq _ _ t') by exact T2.
    match goal with |- context [mod_tx_log SReq ?f e ?z] => destruct (mod_tx_log_get SReq f e z t' T2) as [l2 El]; set (ff := f) in El |- *; rewrite El; clear El end.
    exists l2. ev. rewrite tx_set_set. unfold ff, with_decompressors. destruct (initialize_decompressors _ _ _) as [dd lg3]. reflexivity.
  - rewrite (mod_tx_get SReq _ _ _ t) by exact T. ev. set (t1 := add_flag MULTI_PACKET_HEAD t) in *.
    assert (T1 : tx_get ri (tx_set ri t1 txs) = Some t1) by apply (tx_get_set_eq _ _ _ _ T).
    rewrite (the_tx_get SReq _ _ t1) by exact T1. rewrite Pr. unfold put_tx, modify. ev. rewrite tx_set_set.
    match goal with |- context [logs lg e ?z] => destruct (logs_eval lg e z) as [l1 El]; rewrite El; clear El end. ev.
    assert (T2 : tx_get ri (tx_set ri t' txs) = Some t') by apply (tx_get_set_eq _ _ _ _ T).
    rewrite (tx_hook_yes e _ _ _ t' Y) by exact T2. unfold push, init_decompressors. ev. rewrite (need_tx_get SReq _ _ t') by exact T2.
    match goal with |- context [mod_tx_log SReq ?f e ?z] => destruct (mod_tx_log_get SReq f e z t' T2) as [l2 El]; set (ff := f) in El |- *; rewrite El; clear El end.
    exists l2. ev. rewrite tx_set_set. unfold ff, with_decompressors. destruct (initialize_decompressors _ _ _) as [dd lg3]. reflexivity.
Qed.
