(** Proofs of C62, C63, C64, C74 and C75. *)
From Verif Require Import ProofsUrl ProofsUri.
From Verif Require Import Base Spec SpecTx SpecMsg SpecHost SpecLine SpecStage ModelUtil ModelBstr ModelParsers ModelUri ModelHeaders ModelState ModelTx ModelConn
  ProofsBase ProofsBstr ProofsParsers ProofsTx ProofsHost ProofsCore ProofsRel ProofsLine ProofsMsg.

(** * The head of a request *)
Lemma process_head p ip6 b64 t ok t' lg : process_request_headers p ip6 b64 t = (ok, t', lg) -> head_of t' = head_of t.
Proof.
  intro H. destruct (process_parts _ _ _ _ _ _ _ H) as (t1 & t3 & (_ & A2 & _) & (_ & B2 & _) & ->).
  destruct (host_part ip6 t1) as (_ & C & _). destruct (auth_part p b64 t3) as (_ & D & _). destruct ok; congruence.
Qed.
Lemma request_decided_after p ip6 b64 t ok t' lg : process_request_headers p ip6 b64 t = (ok, t', lg) -> request_decided t'.
Proof.
  intro H. pose proof (process_head _ _ _ _ _ _ _ H) as Hd. unfold head_of in Hd. injection Hd as Hp Hh Hv. unfold flagged.
  constructor; rewrite ?Hh, ?Hv.
  - intros te T M. destruct (framing_chunked _ _ _ _ _ _ _ _ H T M) as (A & B & C). split; [exact A|]. split.
    + intros cl L. apply B. right. right. eauto.
    + intro N1. split; [apply B|apply C]; auto.
  - intros te T M. destruct (framing_other_te _ _ _ _ _ _ _ _ H T M) as (A & B & C & _). auto.
  - intros cl L T. destruct (framing_length _ _ _ _ _ _ _ _ H L T) as (A & B & C & D). split; [exact A|]. split; [exact B|]. split; [exact C|].
    intro R. apply D. auto.
  - intros L1 L2. exact (proj1 (framing_none _ _ _ _ _ _ _ H L1 L2)).
  - intros L V. apply (host_missing _ _ _ _ _ _ _ H). auto.
  - intros h q T. assert (T' : target_host t h (Some q)) by (unfold target_host in *; now rewrite <- Hp). refine (uri_host_set _ _ _ _ _ _ _ _ _ H _ T'). discriminate.
  - intros h q l h' q' T L HT D. assert (T' : target_host t h (Some q)) by (unfold target_host in *; now rewrite <- Hp).
    refine (proj2 (host_conflict _ _ _ _ _ _ _ _ _ _ _ _ H _ T' L HT) _); [discriminate|]. right. destruct D as [D|(r & -> & D)]; [auto|]. right. exists q, r. auto.
Qed.
Lemma process_prog p ip6 b64 t ok t' lg : process_request_headers p ip6 b64 t = (ok, t', lg) -> t_prog (x_req t') = t_prog (x_req t).
Proof. intro H. pose proof (al_process p ip6 b64 t) as A. rewrite H in A. cbn [fst snd] in A. apply A. Qed.

(** * The head of a response *)
Definition te_of (t : tx) : option header := headers_get_nocase_nozero (t_headers (x_resp t)) (s2b "transfer-encoding").
Definition cl_of (t : tx) : option header := headers_get_nocase_nozero (t_headers (x_resp t)) (s2b "content-length").
Definition same_head (t t' : tx) : Prop := x_methodn t' = x_methodn t /\ x_statusn t' = x_statusn t /\ t_headers (x_resp t') = t_headers (x_resp t).
Lemma is_method_iff t m : is_method (x_methodn t) m = true <-> has_method t m.
Proof.
  unfold is_method, has_method. destruct (x_methodn t) as [|n]; [split; discriminate|]. rewrite bytes_eqb_eq. split; [now intros ->|now intros [= ->]].
Qed.
Lemma in_range_iff t a b : in_range (x_statusn t) a b = true <-> status_in t a b.
Proof.
  unfold in_range, status_in. destruct (x_statusn t) as [| |n]; try (split; [discriminate|intros (x & Z & _); discriminate Z]).
  rewrite andb_true_iff, !N.leb_le. split; [intros H; exists n; auto|]. intros (x & [= ->] & H). exact H.
Qed.
Lemma eq_num_iff t k : eq_num (x_statusn t) k = true <-> status_in t k k.
Proof.
  unfold eq_num, status_in. destruct (x_statusn t) as [| |n]; try (split; [discriminate|intros (x & Z & _); discriminate Z]).
  rewrite N.eqb_eq. split; [intros ->; exists k; split; [reflexivity|lia]|]. intros (x & [= ->] & H). lia.
Qed.
Lemma lacks_iff hs k : lacks hs k <-> headers_get_nocase_nozero hs k = None.
Proof. split; [apply get_lacks|]. intro H. now apply header_lookup_first_match. Qed.
Lemma head_tunnels t t' : same_head t t' -> (tunnels t' <-> tunnels t) /\ (bodiless t' <-> bodiless t).
Proof. intros (A & B & C). unfold tunnels, bodiless, has_method, status_in. rewrite A, B, C. split; reflexivity. Qed.
Lemma decided_tunnel t t' : same_head t t' -> tunnels t -> response_decided t'.
Proof. intros H T. apply (head_tunnels _ _) in H. destruct H as [H _]. apply H in T. constructor; intros; contradiction. Qed.
Lemma decided_nobody t t' : same_head t t' -> bodiless t -> t_coding (x_resp t') = CdNoBody -> response_decided t'.
Proof. intros H T C. apply (head_tunnels _ _) in H. destruct H as [_ H]. apply H in T. constructor; intros; try contradiction. exact C. Qed.
Definition said_chunked (t : tx) : bool := match te_of t with Some h => is_some (index_of_nocase_nozero (hd_value h) (s2b "chunked")) | None => false end.
Lemma said_unchunked t : unchunked t -> said_chunked t = false.
Proof.
  unfold said_chunked, te_of. intro U. destruct headers_get_nocase_nozero as [h|] eqn:E; [|reflexivity]. apply header_lookup_first_match in E.
  apply not_true_iff_false. intro M. apply (U h E). apply mentions_iff; [discriminate|exact M].
Qed.
Lemma said_mentions t te : the_header (t_headers (x_resp t)) (s2b "transfer-encoding") te -> mentions (hd_value te) (s2b "chunked") -> said_chunked t = true.
Proof. intros T M. unfold said_chunked, te_of. rewrite (get_the_header _ _ _ T). apply mentions_iff; [discriminate|exact M]. Qed.
Lemma decided_chunked t t' : same_head t t' -> ~ bodiless t -> said_chunked t = true -> t_coding (x_resp t') = CdChunked -> t_prog (x_resp t') = PBody ->
  (is_some (cl_of t) = true -> flagged t' REQUEST_SMUGGLING) -> response_decided t'.
Proof.
  intros H T C D P F. pose proof H as (_ & _ & Hh). apply (head_tunnels _ _) in H. destruct H as [_ H].
  assert (T' : ~ bodiless t') by tauto. assert (C' : said_chunked t' = true) by (unfold said_chunked, te_of in *; now rewrite Hh).
  constructor; intros; try contradiction.
  - split; [exact D|]. split; [exact P|]. intros cl L. apply F. unfold cl_of. rewrite <- Hh, (get_the_header _ _ _ L). reflexivity.
  - match goal with U : unchunked t' |- _ => apply said_unchunked in U; congruence end.
  - match goal with U : unchunked t' |- _ => apply said_unchunked in U; congruence end.
Qed.
Lemma decided_length t t' cl n : same_head t t' -> ~ bodiless t -> said_chunked t = false -> cl_of t = Some cl -> fst (parse_content_length_log (hd_value cl)) = Some n ->
  t_coding (x_resp t') = CdIdentity -> t_clen (x_resp t') = Some n -> (0 < n -> t_prog (x_resp t') = PBody) -> (fis_set (hd_flags cl) FIELD_REPEATED = true -> flagged t' REQUEST_SMUGGLING) -> response_decided t'.
Proof.
  intros H T C L N1 D N2 N3 F. pose proof H as (_ & _ & Hh). apply (head_tunnels _ _) in H. destruct H as [_ H].
  assert (T' : ~ bodiless t') by tauto. assert (C' : said_chunked t' = false) by (unfold said_chunked, te_of in *; now rewrite Hh).
  unfold cl_of in L. rewrite <- Hh in L. constructor; intros; try contradiction.
  - match goal with M : mentions _ _ |- _ => eapply said_mentions in M; [|eassumption]; congruence end.
  - match goal with X : the_header _ (s2b "content-length") ?c |- _ => apply get_the_header in X; rewrite L in X; injection X as <- end.
    split; [exact D|]. split; [|exact F]. unfold parse_content_length_log in N1. pose proof (parse_content_length_value (hd_value cl)) as V.
    destruct (parse_content_length (hd_value cl)) as [m [ws we]]. cbn [fst] in V, N1. apply V in N1. destruct N1 as (ds & A & B & E). exists n, ds. auto.
  - match goal with X : lacks _ _ |- _ => apply get_lacks in X; congruence end.
Qed.
Lemma decided_rest t t' : same_head t t' -> ~ bodiless t -> said_chunked t = false -> cl_of t = None ->
  t_coding (x_resp t') = CdIdentity -> t_prog (x_resp t') = PBody -> response_decided t'.
Proof.
  intros H T C L D P. pose proof H as (_ & _ & Hh). apply (head_tunnels _ _) in H. destruct H as [_ H].
  assert (T' : ~ bodiless t') by tauto. assert (C' : said_chunked t' = false) by (unfold said_chunked, te_of in *; now rewrite Hh).
  unfold cl_of in L. rewrite <- Hh in L. constructor; intros; try contradiction.
  - match goal with M : mentions _ _ |- _ => eapply said_mentions in M; [|eassumption]; congruence end.
  - match goal with X : the_header _ (s2b "content-length") ?c |- _ => apply get_the_header in X; congruence end.
  - auto.
Qed.

(** * Two runs that differ in what callbacks answer out of stage *)
(** The raw data hook a side may have installed. *)
Definition own_recv (sd : side) (h : option hook) : Prop :=
  match sd, h with
  | _, None => True
  | SReq, Some HRequestHeaderData | SReq, Some HRequestTrailerData => True
  | SResp, Some HResponseHeaderData | SResp, Some HResponseTrailerData => True
  | _, _ => False
  end.
Definition cur (sd : side) (t : tx) (s : st) : Prop := tx_get (s_idx sd s) (s_txs s) = Some t.
Section Stage.
Variables (e : env) (cb : st -> event -> status).
Local Notation e' := (with_callbacks cb e).
Hypothesis Same : forall s ev, in_stage (e_cfg e) s ev -> e_cb e s ev = cb s ev.
(** Every call made so far found what it announced. *)
Definition answered (s : st) : Prop :=
  forall pre ev x post, s_trace s = pre ++ (ev, x) :: post -> exists s0, s_trace s0 = post /\ in_stage (e_cfg e) s0 ev /\ x = e_cb e s0 ev.
Definition RI (s : st) : Prop := (own_recv SReq (d_recv (s_req s)) /\ own_recv SResp (d_recv (s_resp s))) /\ answered s.
Definition agat {A} (m : M A) (s : st) : Prop := m e s = m e' s /\ RI (snd (m e s)).
Definition ag {A} (m : M A) : Prop := forall s, RI s -> agat m s.
Lemma agat_bind A B (m : M A) (k : A -> M B) s : agat m s -> (forall a s', m e s = (ROk a, s') -> RI s' -> agat (k a) s') -> agat (bind m k) s.
Proof.
  intros [Hm Hr] Hk. unfold agat, bind in *. rewrite <- Hm. destruct (m e s) as [[a|x| |] s'] eqn:E; try (split; [reflexivity|exact Hr]). now apply (Hk a s').
Qed.
Lemma agat_step A B (m : M A) (k : A -> M B) a s s' : m e s = (ROk a, s') -> agat m s -> (RI s' -> agat (k a) s') -> agat (bind m k) s.
Proof. intros E H Hk. apply agat_bind; [exact H|]. intros b s1 E1 R. rewrite E in E1. injection E1 as <- <-. auto. Qed.
Lemma ag_ret A (a : A) : ag (ret a). Proof. intros s R. split; [reflexivity|exact R]. Qed.
Lemma ag_fail A x : ag (@fail A x). Proof. intros s R. split; [reflexivity|exact R]. Qed.
Lemma ag_panic A : ag (@panic A). Proof. intros s R. split; [reflexivity|exact R]. Qed.
Lemma ag_fuel A : ag (@out_of_fuel A). Proof. intros s R. split; [reflexivity|exact R]. Qed.
Lemma ag_bind A B (m : M A) (k : A -> M B) : ag m -> (forall a, ag (k a)) -> ag (bind m k).
Proof. intros Hm Hk s R. apply agat_bind; [now apply Hm|]. intros a s' _ R'. now apply Hk. Qed.
Lemma ag_get : ag get. Proof. intros s R. split; [reflexivity|exact R]. Qed.
Lemma agat_ask A (k : env -> M A) s : k e e' s = k e' e' s -> agat (k e) s -> agat (bind ask k) s.
Proof. intros H [Hk R]. unfold agat, bind, ask. rewrite <- H. split; assumption. Qed.
Lemma ag_ask A (k : env -> M A) : (forall s, k e e' s = k e' e' s) -> ag (k e) -> ag (bind ask k).
Proof. intros H Hk s R. apply agat_ask; [apply H|now apply Hk]. Qed.
Lemma ag_get_d sd : ag (get_d sd). Proof. intros s R. split; [reflexivity|exact R]. Qed.
Lemma ag_input : ag input. Proof. intros s R. split; [reflexivity|exact R]. Qed.
Lemma ag_slice : ag slice. Proof. intros s R. split; [reflexivity|exact R]. Qed.
Lemma ag_modify f : (forall s, RI s -> RI (f s)) -> ag (modify f). Proof. intros H s R. split; [reflexivity|]. cbn. auto. Qed.
Lemma ag_upd_d sd f : (forall d, own_recv sd (d_recv d) -> own_recv sd (d_recv (f d))) -> ag (upd_d sd f).
Proof. intros H s [[R1 R2] R3]. split; [reflexivity|]. split; [|destruct sd; exact R3]. destruct sd; (split; [try exact R1|try exact R2]); apply H; assumption. Qed.
Lemma agat_ignore A (m : M A) s : agat m s -> agat (ignore m) s.
Proof. unfold agat, ignore. intros [<- R]. destruct (m e s) as [[]]; split; try reflexivity; exact R. Qed.
Lemma ag_ignore A (m : M A) : ag m -> ag (ignore m).
Proof. intros H s R. apply agat_ignore. now apply H. Qed.
Lemma ag_try A (m : M A) : ag m -> ag (try m).
Proof. intros H s R. destruct (H s R) as [E R']. unfold agat, try. rewrite <- E. destruct (m e s) as [[]]; split; try reflexivity; exact R'. Qed.
Lemma ag_when b m : ag m -> ag (when b m). Proof. intro H. destruct b; [exact H|apply ag_ret]. Qed.
Lemma ag_for_each A (f : A -> M unit) l : (forall a, ag (f a)) -> ag (for_each f l).
Proof. intros H. induction l as [|a l IH]; cbn [for_each]; [apply ag_ret|apply ag_bind; [apply H|intros _; exact IH]]. Qed.
Lemma ag_log lv c : ag (log lv c). Proof. intros s R. split; [reflexivity|]. cbn. destruct (_ <=? _); exact R. Qed.
Lemma ag_cur_tx sd : ag (cur_tx sd).
Proof. intros s R. split; [reflexivity|]. unfold cur_tx. destruct tx_get; [exact R|]. destruct (_ <=? _); exact R. Qed.
Lemma ag_check_free i : ag (check_free i).
Proof. intros s R. split; [reflexivity|]. cbn. destruct (c_auto_destroy _); [|exact R]. destruct tx_get as [t|]; [|exact R]. destruct (is_complete t); exact R. Qed.
(** The callbacks. *)
Lemma agat_call h i d s : RI s -> in_stage (e_cfg e) s (mk_ev h i d) -> agat (call h i d) s.
Proof.
  intros [R Q] I. unfold agat, call. cbn [with_callbacks e_cb]. split; [now rewrite (Same _ _ I)|]. cbn [snd]. split; [exact R|].
  intros [|y pre] ev x post E; injection E as E1 E2.
  - exists s. now subst.
  - exact (Q _ _ _ _ E2).
Qed.
Lemma ag_check r : ag (check r). Proof. intros s R. unfold agat, check. destruct r; (split; [reflexivity|exact R]). Qed.
Lemma agat_data_hook h i d s : RI s -> in_stage (e_cfg e) s (mk_ev h i d) -> agat (data_hook h i d) s.
Proof. intros R I. unfold data_hook. apply agat_bind; [now apply agat_call|]. intros. now apply ag_check. Qed.
Lemma agat_tx_hook h i s : RI s -> (forall t, tx_get i (s_txs s) = Some t -> stage (e_cfg e) h t /\ forall j, turn h s = Some j -> i = j) -> agat (tx_hook h i) s.
Proof.
  intros R I. unfold tx_hook. apply agat_bind; [now apply ag_get|]. intros a s' E _. injection E as <- <-. destruct (tx_get i (s_txs s)) as [t|] eqn:G; [|now apply ag_ret].
  apply agat_bind; [|intros; now apply ag_check]. destruct (I t eq_refl) as [I1 I2]. apply agat_call; [exact R|]. split; [exists t; split; assumption|exact I2].
Qed.
(** What reading and changing the current transaction leaves. *)
Definition idle (s s' : st) : Prop := s_ridx s' = s_ridx s /\ s_pidx s' = s_pidx s.
Lemma idle_idx s s' sd : idle s s' -> s_idx sd s' = s_idx sd s. Proof. intros [A B]. now destruct sd. Qed.
Lemma cur_some sd s o s' : cur_tx sd e s = (ROk o, s') -> idle s s' /\ forall t, o = Some t -> cur sd t s'.
Proof.
  unfold cur_tx, cur, idle. destruct (tx_get (s_idx sd s) (s_txs s)) as [u|] eqn:G.
  - intros [= <- <-]. split; [auto|]. congruence.
  - destruct (_ <=? _); [intros [= <- <-]; split; [auto|discriminate]|]. intros [= <- <-]. split; [split; reflexivity|]. intros t [= <-].
    replace (s_idx sd (set_s_txs _ s)) with (s_idx sd s) by now destruct sd. cbn [s_txs set_s_txs]. now rewrite tx_get_put, N.eqb_refl.
Qed.
Lemma cur_need sd s t s' : need_tx sd e s = (ROk t, s') -> cur sd t s' /\ idle s s'.
Proof.
  unfold need_tx, bind. destruct (cur_tx sd e s) as [[o|x| |] s1] eqn:E; try discriminate. destruct (cur_some _ _ _ _ E) as [I C].
  destruct o as [u|]; [|discriminate]. intros [= <- <-]. auto.
Qed.
Lemma cur_the sd s t s' : the_tx sd e s = (ROk t, s') -> cur sd t s' /\ idle s s'.
Proof.
  unfold the_tx, bind. destruct (cur_tx sd e s) as [[o|x| |] s1] eqn:E; try discriminate. destruct (cur_some _ _ _ _ E) as [I C].
  destruct o as [u|]; [|discriminate]. intros [= <- <-]. auto.
Qed.
Lemma the_cur sd s t : cur sd t s -> the_tx sd e s = (ROk t, s).
Proof. unfold cur, the_tx, bind, cur_tx. intros ->. reflexivity. Qed.
Lemma need_cur sd s t : cur sd t s -> need_tx sd e s = (ROk t, s).
Proof. unfold cur, need_tx, bind, cur_tx. intros ->. reflexivity. Qed.
Lemma cur_put sd s t u : cur sd t s -> cur sd u (set_s_txs (tx_set (s_idx sd s) u (s_txs s)) s).
Proof.
  intro C. unfold cur in *. replace (s_idx sd (set_s_txs _ s)) with (s_idx sd s) by now destruct sd. cbn [s_txs set_s_txs]. now rewrite tx_get_set, N.eqb_refl, C.
Qed.
(** Same table, same indices. *)
Definition still (s s' : st) : Prop := s_txs s' = s_txs s /\ idle s s'.
Lemma still_refl s : still s s. Proof. repeat split. Qed.
Lemma still_trans a b c : still a b -> still b c -> still a c.
Proof. unfold still, idle. intros (A & B & C) (D & E & F). repeat split; congruence. Qed.
Lemma still_cur sd t s s' : still s s' -> cur sd t s -> cur sd t s'.
Proof. intros [E I]. unfold cur. now rewrite (idle_idx _ _ _ I), E. Qed.
Lemma still_logs l s : fst (logs l e s) = ROk tt /\ still s (snd (logs l e s)).
Proof.
  unfold logs. revert s. induction l as [|m l IH]; intro s; cbn [for_each]; [split; [reflexivity|apply still_refl]|].
  unfold bind, log. destruct (IH (if lg_level m <=? c_log_level (e_cfg e) then set_s_logs (mk_log (lg_level m) (lg_code m) :: s_logs s) s else s)) as [A B].
  split; [exact A|]. eapply still_trans; [|exact B]. destruct (_ <=? _); repeat split.
Qed.
Lemma mod_tx_post sd f s a s' : mod_tx sd f e s = (ROk a, s') -> exists t, cur sd (f t) s' /\ idle s s' /\ forall u, cur sd u s -> t = u.
Proof.
  unfold mod_tx, bind. destruct (the_tx sd e s) as [[t|x| |] s1] eqn:E; try discriminate. destruct (cur_the _ _ _ _ E) as [C I].
  cbn. intros [= _ <-]. exists t. split; [eapply cur_put; exact C|]. split; [destruct I; now split|]. intros u U. rewrite (the_cur _ _ _ U) in E. congruence.
Qed.
Lemma mod_tx_log_post sd f s a s' : mod_tx_log sd f e s = (ROk a, s') -> exists t, cur sd (fst (f t)) s' /\ idle s s' /\ forall u, cur sd u s -> t = u.
Proof.
  unfold mod_tx_log, bind at 1. destruct (the_tx sd e s) as [[t|x| |] s1] eqn:E; try discriminate. destruct (cur_the _ _ _ _ E) as [C I].
  destruct (f t) as [t' lg] eqn:F. unfold bind at 1, get. unfold bind, put_tx, modify. set (s2 := set_s_txs _ s1).
  pose proof (still_logs lg s2) as [A B]. destruct (logs lg e s2) as [r s3]. cbn [fst snd] in A, B. intros [= _ <-]. exists t. rewrite F. cbn [fst].
  split; [apply (still_cur _ _ _ _ B); eapply cur_put; exact C|]. split; [destruct I, B as (_ & B1 & B2); split; unfold s2 in *; cbn in *; congruence|].
  intros u U. rewrite (the_cur _ _ _ U) in E. congruence.
Qed.

(** * The walk *)
Create HintDb ag.
Hint Resolve ag_get ag_get_d ag_input ag_slice ag_log ag_cur_tx ag_check_free ag_check : ag.
Ltac ag_step :=
  lazymatch goal with
  | |- forall _, _ => intro
  | |- ag (ret _) => apply ag_ret
  | |- ag (fail _) => apply ag_fail
  | |- ag panic => apply ag_panic
  | |- ag out_of_fuel => apply ag_fuel
  | |- ag (bind ask _) => apply ag_ask; [intro; reflexivity|]
  | |- ag (bind _ _) => apply ag_bind
  | |- ag (ignore _) => apply ag_ignore
  | |- ag (try _) => apply ag_try
  | |- ag (when _ _) => apply ag_when
  | |- ag (for_each _ _) => apply ag_for_each
  | |- ag (modify _) => apply ag_modify; let s := fresh in let R := fresh in intros s R; exact R
  | |- ag (upd_d _ (set_d_recv _)) => solve [auto 2 with ag]
  | |- ag (upd_d _ _) => apply ag_upd_d; let d := fresh in let R := fresh in intros d R; exact R
  | |- ag (by_side ?sd _ _) => destruct sd; cbn [by_side]
  | |- ag (match ?x with _ => _ end) => destruct x
  | |- ag (let _ := _ in _) => cbv zeta
  | |- _ => solve [auto 2 with ag]
  end.
Ltac ag_go := repeat ag_step.
Lemma ag_logs l : ag (logs l). Proof. unfold logs. ag_go. Qed.
Lemma ag_put_tx i t : ag (put_tx i t). Proof. unfold put_tx. ag_go. Qed.
Hint Resolve ag_logs ag_put_tx : ag.
Lemma ag_need_tx sd : ag (need_tx sd). Proof. unfold need_tx. ag_go. Qed.
Lemma ag_the_tx sd : ag (the_tx sd). Proof. unfold the_tx. ag_go. Qed.
Hint Resolve ag_need_tx ag_the_tx : ag.
Lemma ag_mod_tx sd f : ag (mod_tx sd f). Proof. unfold mod_tx. ag_go. Qed.
Lemma ag_mod_tx_log sd f : ag (mod_tx_log sd f). Proof. unfold mod_tx_log. ag_go. Qed.
Hint Resolve ag_mod_tx ag_mod_tx_log : ag.
Lemma ag_mod_txd sd f : ag (mod_txd sd f). Proof. unfold mod_txd. ag_go. Qed.
Lemma ag_set_state sd x : ag (set_state sd x). Proof. unfold set_state. ag_go. Qed.
Lemma ag_set_status sd x : ag (set_status sd x). Proof. unfold set_status. ag_go. Qed.
Hint Resolve ag_mod_txd ag_set_state ag_set_status : ag.
Lemma ag_set_progress sd p : ag (set_progress sd p). Proof. unfold set_progress. ag_go. Qed.
Lemma ag_set_input sd p : ag (set_input sd p). Proof. unfold set_input. ag_go. Qed.
Hint Resolve ag_set_progress ag_set_input : ag.
Lemma ag_consume sd n : ag (consume sd n). Proof. unfold consume. ag_go. Qed.
Lemma ag_unconsume sd n : ag (unconsume sd n). Proof. unfold unconsume. ag_go. Qed.
Lemma ag_slice_to n : ag (slice_to n). Proof. unfold slice_to. ag_go. Qed.
Lemma ag_request_next : ag request_next. Proof. unfold request_next. ag_go. Qed.
Lemma ag_response_next : ag response_next. Proof. unfold response_next. ag_go. Qed.
Hint Resolve ag_consume ag_unconsume ag_slice_to ag_request_next ag_response_next : ag.
Lemma in_stage_data h i d s t : tx_get i (s_txs s) = Some t -> stage (e_cfg e) h t -> (forall j, turn h s = Some j -> i = j) -> in_stage (e_cfg e) s (mk_ev h i d).
Proof. intros G S T. split; [exists t; split; assumption|exact T]. Qed.
Lemma ag_receiver_send_data sd : ag (receiver_send_data sd).
Proof.
  unfold receiver_send_data. apply ag_bind; [apply ag_input|]. intro p. destruct (pd_callback_data p) as [d p']. apply ag_bind; [ag_go|]. intros _ s R.
  apply agat_bind; [now apply ag_need_tx|]. intros t s1 E R1. destruct (cur_need _ _ _ _ E) as [C _]. clear E s R.
  apply agat_bind; [now apply ag_get|]. intros a s2 E R2. injection E as <- <-. destruct (d_recv (s_dir sd s1)) as [h|] eqn:Hr; [|now apply ag_ret].
  apply agat_data_hook; [exact R1|]. destruct R1 as [[Q1 Q2] _]. destruct sd; cbn in Hr; rewrite Hr in *.
  - apply (in_stage_data _ _ _ _ _ C); destruct h; try contradiction Q1; try exact I; intros j [= <-]; reflexivity.
  - apply (in_stage_data _ _ _ _ _ C); destruct h; try contradiction Q2; try exact I; intros j [= <-]; reflexivity.
Qed.
Hint Resolve ag_receiver_send_data : ag.
Lemma ag_recv_none sd : ag (upd_d sd (set_d_recv None)).
Proof. apply ag_upd_d. intros d _. destruct sd; exact I. Qed.
Hint Resolve ag_recv_none : ag.
Lemma ag_receiver_finalize_clear sd : ag (receiver_finalize_clear sd).
Proof. unfold receiver_finalize_clear. ag_go. Qed.
Lemma ag_handle_state_change sd : ag (handle_state_change sd).
Proof.
  unfold handle_state_change. ag_step; [ag_go|]. ag_step. ag_step; [ag_go|]. ag_step; [|ag_go]. ag_step; [|ag_go]. ag_step; [ag_go|]. ag_step. ag_step; [ag_go|]. ag_step.
  ag_step; try apply ag_ret; (apply ag_upd_d; intros d _; destruct sd; exact I).
Qed.
Lemma ag_check_buffer_limit sd n : ag (check_buffer_limit sd n). Proof. unfold check_buffer_limit. ag_go. Qed.
Hint Resolve ag_receiver_finalize_clear ag_handle_state_change ag_check_buffer_limit : ag.
Lemma ag_absent_lf sd : ag (absent_lf sd). Proof. unfold absent_lf. ag_go. Qed.
Lemma ag_take_buf sd : ag (take_buf sd). Proof. unfold take_buf. ag_go. Qed.
Lemma ag_check_limit_if_buffered sd n : ag (check_limit_if_buffered sd n). Proof. unfold check_limit_if_buffered. ag_go. Qed.
Lemma ag_run_hook_body_data sd d : ag (run_hook_body_data sd d).
Proof.
  unfold run_hook_body_data. apply ag_bind; [ag_go|]. intros _. cbv zeta. match goal with |- ag (if ?c then _ else _) => destruct c end; [ag_go|]. intros s R.
  apply agat_bind; [now apply ag_the_tx|]. intros t s1 E R1. destruct (cur_the _ _ _ _ E) as [C _]. clear E s R.
  apply agat_bind; [now apply ag_get|]. intros a s2 E R2. injection E as <- <-.
  apply agat_bind; [apply agat_data_hook; [exact R1|destruct sd; apply (in_stage_data _ _ _ _ _ C); try exact I; intros j [= <-]; reflexivity]|].
  intros u s3 E R3. assert (S : still s1 s3).
  { unfold data_hook, bind, call in E. destruct (e_cb e s1 _) in E; try discriminate E; injection E as _ <-; repeat split. }
  apply agat_data_hook; [exact R3|]. pose proof (still_cur _ _ _ _ S C) as C3. destruct S as (_ & S1 & S2). unfold cur in C3.
  destruct sd; cbn [s_idx by_side] in *.
  - rewrite <- S1. apply (in_stage_data _ _ _ _ _ C3); [exact I|]. intros j [= <-]. reflexivity.
  - rewrite <- S2. apply (in_stage_data _ _ _ _ _ C3); [exact I|]. intros j [= <-]. reflexivity.
Qed.
Lemma ag_add_mlen sd n : ag (add_mlen sd n). Proof. unfold add_mlen. ag_go. Qed.
Lemma ag_add_elen sd n : ag (add_elen sd n). Proof. unfold add_elen. ag_go. Qed.
Hint Resolve ag_absent_lf ag_take_buf ag_check_limit_if_buffered ag_run_hook_body_data ag_add_mlen ag_add_elen : ag.
Lemma ag_decompressor_callback sd d : ag (decompressor_callback sd d). Proof. unfold decompressor_callback. ag_go. Qed.
Hint Resolve ag_decompressor_callback : ag.
Lemma ag_run_tree sd t : ag (run_tree sd t).
Proof. induction t as [ok slow|d k IH]; cbn [run_tree]; ag_go. Qed.
Hint Resolve ag_run_tree : ag.
Lemma ag_body_data sd d : ag (body_data sd d). Proof. unfold body_data. ag_go. Qed.
Hint Resolve ag_body_data : ag.
Lemma ag_parse_headers sd d : ag (parse_headers sd d). Proof. unfold parse_headers. ag_go. Qed.
Lemma ag_init_decompressors sd : ag (init_decompressors sd). Proof. unfold init_decompressors. ag_go. Qed.
Hint Resolve ag_parse_headers ag_init_decompressors : ag.

(** * The places where hooks run *)
Lemma cur_idx sd t s : cur sd t s -> forall i u, i = s_idx sd s -> tx_get i (s_txs s) = Some u -> u = t.
Proof. unfold cur. intros C i u -> G. congruence. Qed.
(** A hook about the current transaction. *)
Lemma agat_hook_cur sd h t s : RI s -> cur sd t s -> stage (e_cfg e) h t -> (forall j, turn h s = Some j -> s_idx sd s = j) -> agat (tx_hook h (s_idx sd s)) s.
Proof. intros R C S T. apply agat_tx_hook; [exact R|]. intros u G. rewrite (cur_idx _ _ _ C _ _ eq_refl G). auto. Qed.
Lemma still_tx_hook h i s : still s (snd (tx_hook h i e s)).
Proof. unfold tx_hook, bind, get, call, check. destruct (tx_get i (s_txs s)); [|apply still_refl]. destruct (e_cb e s _); repeat split. Qed.
Lemma ok_snd A (m : M A) s a s' : m e s = (ROk a, s') -> s' = snd (m e s). Proof. intros ->. reflexivity. Qed.
Lemma still_idle s s' : still s s' -> idle s s'. Proof. now intros [_ H]. Qed.
Lemma idle_trans a b c : idle a b -> idle b c -> idle a c. Proof. unfold idle. intuition congruence. Qed.
Ltac by_ag := match goal with |- agat ?m _ => let Z := fresh in assert (Z : ag m) by ag_go; now apply Z end.
Ltac next s1 E R1 := apply agat_bind; [by_ag|]; intros ? s1 E R1.
Lemma ag_state_request_start : ag state_request_start.
Proof.
  unfold state_request_start. do 2 (apply ag_bind; [ag_go|intros _]). intros s R. next s1 E R1.
  apply mod_tx_post in E. destruct E as (t & C & _). apply agat_bind; [now apply ag_get|]. intros ? ? [= <- <-] _.
  apply (agat_hook_cur SReq _ _ _ R1 C); [reflexivity|]. intros j [= <-]. reflexivity.
Qed.
Lemma ag_state_request_headers : ag state_request_headers.
Proof.
  unfold state_request_headers. apply ag_bind; [ag_go|intros _]. intros s R. apply agat_bind; [now apply ag_need_tx|]. intros t s1 E R1.
  destruct (cur_need _ _ _ _ E) as [C _]. clear E s R. cbv zeta.
  destruct (prog_rank PHeaders <? prog_rank (t_prog (x_req t))) eqn:P1.
  { apply agat_bind; [now apply ag_get|]. intros ? ? [= <- <-] _. apply agat_bind; [|intros; now apply ag_set_state].
    apply (agat_hook_cur SReq _ _ _ R1 C); [|intros j [= <-]; reflexivity]. cbn [stage]. destruct (t_prog (x_req t)); try discriminate P1; repeat split; discriminate. }
  destruct (prog_rank PLine <=? prog_rank (t_prog (x_req t))) eqn:P2; [|by_ag].
  apply agat_bind; [now apply ag_get|]. intros ? ? [= <- <-] _. apply agat_ask; [reflexivity|].
  apply agat_bind; [apply ag_when; [ag_go|exact R1]|]. intros ? s2 E R2.
  assert (C2 : exists t2, cur SReq t2 s2 /\ idle s1 s2 /\ t_prog (x_req t2) = t_prog (x_req t)).
  { destruct (negb _) in E; cbn [when] in E.
    - apply mod_tx_post in E. destruct E as (t2 & C2 & I & U). rewrite (U _ C) in C2. exists (add_flag MULTI_PACKET_HEAD t). repeat split; assumption || apply I.
    - injection E as _ <-. exists t. repeat split. exact C. }
  clear E. destruct C2 as (t2 & C2 & I2 & P3). eapply agat_step; [exact (the_cur _ _ _ C2)|now apply ag_the_tx|]. intros _.
  destruct (process_request_headers _ _ _ t2) as [[ok t3] lg] eqn:Pr. destruct I2 as [I2 _]. rewrite <- I2.
  apply agat_bind; [now apply ag_put_tx|]. intros ? s3 E R3. injection E as _ <-. pose proof (cur_put _ _ _ t3 C2) as C3.
  match type of R3 with RI ?x => set (s3 := x) in * end. pose proof (still_logs lg s3) as [L1 L2].
  apply agat_bind; [now apply ag_logs|]. intros ? s4 E R4. rewrite (surjective_pairing (logs lg e s3)), L1 in E. injection E as _ E. rewrite E in L2. clear E L1.
  destruct ok; [|now apply ag_fail]. pose proof (still_cur _ _ _ _ L2 C3) as C4. destruct L2 as (_ & L2 & _).
  apply agat_bind; [|intros; by_ag].
  replace (s_ridx s2) with (s_idx SReq s4) by (cbn; rewrite L2; reflexivity).
  apply (agat_hook_cur SReq _ _ _ R4 C4); [|intros j [= <-]; reflexivity]. cbn [stage]. split; [|exact (request_decided_after _ _ _ _ _ _ _ Pr)].
  rewrite (process_prog _ _ _ _ _ _ _ Pr), P3. destruct (t_prog (x_req t)); try discriminate P1; try discriminate P2; auto.
Qed.
Lemma ag_finalize i : ag (finalize i).
Proof.
  unfold finalize. intros s R. apply agat_bind; [now apply ag_get|]. intros ? ? [= <- <-] _. destruct (tx_get i (s_txs s)) as [t|] eqn:G; [|now apply ag_ret].
  destruct (is_complete t) eqn:Ic; [|now apply ag_ret]. apply agat_tx_hook; [exact R|]. intros u Gu. rewrite G in Gu. injection Gu as <-. split; [|discriminate].
  right. unfold is_complete in Ic. destruct (t_prog (x_req t)), (t_prog (x_resp t)); try discriminate Ic; auto.
Qed.
Hint Resolve ag_state_request_start ag_state_request_headers ag_finalize : ag.
Lemma ag_state_request_complete : ag state_request_complete.
Proof.
  unfold state_request_complete. ag_step; [ag_go|]. ag_step. ag_step; [|ag_go]. apply ag_when. ag_step; [ag_go|]. intros _ s R.
  next s1 E R1. apply mod_tx_post in E. destruct E as (t & C & _).
  apply agat_bind; [|intros; now apply ag_receiver_finalize_clear]. apply agat_bind; [now apply ag_get|]. intros ? ? [= <- <-] _.
  apply (agat_hook_cur SReq _ _ _ R1 C); [reflexivity|]. intros j [= <-]. reflexivity.
Qed.
Lemma ag_state_response_start : ag state_response_start.
Proof.
  unfold state_response_start. intros s R. apply agat_bind; [now apply ag_need_tx|]. intros t s1 E R1. destruct (cur_need _ _ _ _ E) as [C _]. clear E s R.
  apply agat_bind; [by_ag|]. intros ? s2 E R2.
  assert (C2 : exists t2, cur SResp t2 s2 /\ t_prog (x_resp t2) = if x_is09 t2 then PBody else PLine).
  { destruct (x_is09 t) eqn:E9.
    - unfold bind at 1 in E. destruct (mod_txd SResp _ e s1) as [[[]|x| |] s3] eqn:E3; try discriminate E. apply mod_tx_post in E3. destruct E3 as (u & C3 & _ & U). rewrite (U _ C) in C3.
      eexists. split; [eapply still_cur; [|exact C3]|cbn; now rewrite E9]. injection E as _ <-. repeat split.
    - unfold bind at 1 in E. destruct (set_progress SResp _ e s1) as [[[]|x| |] s3] eqn:E3; try discriminate E. apply mod_tx_post in E3. destruct E3 as (u & C3 & _ & U). rewrite (U _ C) in C3.
      eexists. split; [eapply still_cur; [|exact C3]|cbn; now rewrite E9]. injection E as _ <-. repeat split. }
  destruct C2 as (t2 & C2 & P). apply agat_bind; [|intros; by_ag].
  apply agat_bind; [now apply ag_get|]. intros ? ? [= <- <-] _. apply (agat_hook_cur SResp _ _ _ R2 C2); [exact P|]. intros j [= <-]. reflexivity.
Qed.
Lemma line_checked_after t : line_checked (fst (validate_response_line t)).
Proof.
  unfold validate_response_line, line_checked, status_in, flagged. cbv zeta. cbn [fst].
  set (u := if match t_proton (x_resp t) with ProtoInvalid => true | _ => false end then add_flag STATUS_LINE_INVALID t else t).
  assert (U : t_proton (x_resp u) = ProtoInvalid -> fis_set (x_flags u) STATUS_LINE_INVALID = true).
  { unfold u. destruct (t_proton (x_resp t)) eqn:E; intro Z; try (rewrite E in Z; discriminate Z). cbn [add_flag x_flags set_x_flags]. now apply fis_set_added. }
  clearbody u. destruct (in_range (x_statusn u) 100 999) eqn:Ir; cbn [negb].
  - split; [exact U|]. left. unfold in_range in Ir. destruct (x_statusn u) as [| |n]; try discriminate Ir. exists n. split; [reflexivity|]. apply andb_prop in Ir. destruct Ir as [A B]. apply N.leb_le in A, B. auto.
  - split; [intros _; cbn [add_flag x_flags set_x_flags set_x_statusn]; now apply fis_set_added|]. right. split; [reflexivity|]. cbn [add_flag x_flags set_x_flags set_x_statusn]. now apply fis_set_added.
Qed.
Lemma agat_state_response_line l t0 s : RI s -> cur SResp (fst (conn_parse_response_line l t0)) s -> t_proto (x_resp t0) = None -> agat state_response_line s.
Proof.
  intros R C0 P0. unfold state_response_line. apply (agat_step _ _ _ _ _ _ _ (need_cur _ _ _ C0)); [now apply ag_need_tx|]. intros _.
  next s1 E R1. apply mod_tx_log_post in E. destruct E as (t & Ct & _ & U). rewrite (U _ C0) in Ct.
  apply agat_bind; [now apply ag_get|]. intros ? ? [= <- <-] _. apply (agat_hook_cur SResp _ _ _ R1 Ct); [|intros j [= <-]; reflexivity].
  split; [apply line_checked_after|]. destruct (status_line_told l _ t0 (swords_read l) P0) as [A B]. exists l, (swords_of l). split; [exact A|]. split; [apply swords_read|exact B].
Qed.
Lemma ag_request_parser_check_waiting : ag request_parser_check_waiting. Proof. unfold request_parser_check_waiting. ag_go. Qed.
Hint Resolve ag_state_request_complete ag_state_response_start ag_request_parser_check_waiting : ag.
Lemma ag_state_response_complete : ag state_response_complete.
Proof.
  unfold state_response_complete. intros s R. apply agat_bind; [now apply ag_get|]. intros ? ? [= <- <-] _. cbv zeta.
  apply agat_bind; [now apply ag_need_tx|]. intros t s1 E R1. destruct (cur_need _ _ _ _ E) as [_ [_ I1]]. clear E.
  apply agat_bind; [|intros; by_ag].
  destruct (negb _); cbn [when]; [|now apply ag_ret].
  next s2 E R2. apply mod_tx_post in E. destruct E as (u & C & [_ I2] & _).
  apply agat_bind; [apply ag_when; [ag_go|exact R2]|]. intros ? s3 E R3.
  assert (C3 : exists v, cur SResp v s3 /\ t_prog (x_resp v) = PComplete /\ s_pidx s3 = s_pidx s2).
  { destruct (negb _) in E; cbn [when] in E; [|injection E as _ <-; eexists; split; [exact C|split; reflexivity]].
    assert (Q : s3 = snd (body_data SResp None e s2)) by (unfold ignore in E; destruct (body_data SResp None e s2) as [[]]; cbn [snd]; congruence).
    pose proof (ok_body_data 0 SResp false (s_idx SResp s2) None e s2 eq_refl ltac:(discriminate)) as Rl.
    rewrite <- Q in Rl. destruct (rl_txs _ _ _ _ _ Rl _ _ C) as (v & G & K & _). pose proof (rel_idx _ _ SResp _ _ _ Rl) as J. exists v.
    split; [unfold cur; now rewrite J|]. split; [exact (kp_own _ _ _ _ (K eq_refl) eq_refl)|exact J]. }
  destruct C3 as (v & C3 & P3 & I3). replace (s_pidx s) with (s_idx SResp s3) by (cbn; congruence).
  apply agat_bind; [|intros; now apply ag_receiver_finalize_clear]. apply (agat_hook_cur SResp _ _ _ R3 C3); [exact P3|]. intros j [= <-]. reflexivity.
Qed.
Hint Resolve ag_state_response_complete : ag.

Lemma bind_done A B (m : M A) (k : A -> M B) s b s' : bind m k e s = (ROk b, s') -> exists a s1, m e s = (ROk a, s1) /\ k a e s1 = (ROk b, s').
Proof. unfold bind. destruct (m e s) as [[a|x| |] s1]; try discriminate. eauto. Qed.
Definition uri_known (t : tx) : Prop := x_raw t <> None /\ x_parsed t <> None.
Lemma uri_known_after ip6 c t t' : parse_request_uri ip6 c t = Some t' -> uri_known t'.
Proof.
  unfold parse_request_uri. destruct (if is_method (x_methodn t) "CONNECT" then _ else _) as [[raw fl]|]; [|discriminate]. intros [= <-].
  cbn [x_parsed set_x_raw set_x_flags]. destruct (x_parsed t) eqn:E; cbn [is_some].
  - split; cbn [x_raw set_x_raw x_parsed set_x_flags]; congruence.
  - unfold normalize_parsed_uri. repeat match goal with |- context [let '(_, _) := ?x in _] => destruct x as [? ?] end. split; discriminate.
Qed.
Lemma uri_known_hostname ip6 t : uri_known t -> uri_known (check_uri_hostname ip6 t).
Proof. unfold check_uri_hostname, uri_known. destruct (parsed_hostname t); [|auto]. destruct (validate_hostname _ _); auto. Qed.
Definition send_params (i : N) (l : list (bytes * bytes)) : M unit :=
  for_each (fun nv => let* r := call HParam i (PlParam (fst nv) (snd nv)) in match r with SOk => ret tt | _ => fail r end) l.
Lemma send_param_still i n v s : still s (snd ((let* r := call HParam i (PlParam n v) in match r with SOk => ret tt | _ => fail r end) e s)).
Proof. unfold bind, call. destruct (e_cb e s _); repeat split. Qed.
Lemma send_params_still i l : forall s, still s (snd (send_params i l e s)).
Proof.
  unfold send_params. induction l as [|[n v] l IH]; intro s; cbn [for_each fst snd]; [apply still_refl|]. unfold bind at 1.
  pose proof (send_param_still i n v s) as A. destruct (bind (call HParam i (PlParam n v)) _ e s) as [[]]; cbn [snd] in *; try exact A. eapply still_trans; [exact A|apply IH].
Qed.
Lemma agat_send_params l t : forall s, RI s -> cur SReq t s -> agat (send_params (s_ridx s) l) s.
Proof.
  unfold send_params. induction l as [|[n v] l IH]; intros s R C; cbn [for_each fst snd]; [now apply ag_ret|].
  apply agat_bind.
  - apply agat_bind; [apply agat_call; [exact R|]; apply (in_stage_data _ _ _ _ _ C); [exact I|intros j [= <-]; reflexivity]|]. intros r s1 _ R1. destruct r; now (apply ag_ret || apply ag_fail).
  - intros a s1 E R1. pose proof (send_param_still (s_ridx s) n v s) as S. rewrite E in S. cbn [snd] in S. replace (s_ridx s) with (s_ridx s1) by apply S.
    apply IH; [exact R1|]. exact (still_cur _ _ _ _ S C).
Qed.
(** What the parts of the request line are read into is kept while its target is looked at. *)
Definition same_line (t t' : tx) : Prop :=
  x_req t' = x_req t /\ x_method t' = x_method t /\ x_methodn t' = x_methodn t /\ x_uri t' = x_uri t /\ x_is09 t' = x_is09 t.
Definition raw_of (t : tx) : Prop := forall u tg, ~ has_method t "CONNECT" -> x_raw t = Some u -> x_uri t = Some tg -> located tg u.
Lemma same_line_trans t u v : same_line t u -> same_line u v -> same_line t v.
Proof. unfold same_line. intros (-> & -> & -> & -> & ->). auto. Qed.
Lemma same_line_normalize c raw t : same_line t (normalize_parsed_uri c raw t) /\ x_raw (normalize_parsed_uri c raw t) = x_raw t.
Proof. unfold normalize_parsed_uri. repeat match goal with |- context [let '(_, _) := ?x in _] => destruct x as [? ?] end. repeat split. Qed.
Lemma is_method_known n m : is_method n m = true <-> n = MKnown (s2b m).
Proof. unfold is_method. destruct n as [|x]; [split; discriminate|]. rewrite bytes_eqb_eq. split; congruence. Qed.
Lemma same_line_uri ip6 c t t' : parse_request_uri ip6 c t = Some t' -> same_line t t' /\ raw_of t'.
Proof.
  unfold parse_request_uri. destruct (if is_method (x_methodn t) "CONNECT" then _ else _) as [[raw fl]|] eqn:E; [|discriminate]. intros [= <-].
  assert (R : forall tg, ~ has_method t "CONNECT" -> x_uri t = Some tg -> located tg raw).
  { intros tg Nc U. rewrite U in E. destruct (is_method (x_methodn t) "CONNECT") eqn:K; [apply is_method_known in K; contradiction|]. injection E as <- _. apply located_parse. }
  set (t1 := set_x_raw (Some raw) (set_x_flags fl t)). assert (S1 : same_line t t1) by (repeat split).
  set (t2 := if is_some (x_parsed t1) then t1 else normalize_parsed_uri c raw t1).
  assert (S2 : same_line t t2 /\ x_raw t2 = Some raw).
  { unfold t2. destruct (is_some _); [split; [exact S1|reflexivity]|]. destruct (same_line_normalize c raw t1) as [A B]. split; [exact (same_line_trans _ _ _ S1 A)|exact B]. }
  destruct S2 as [S2 X]. change (same_line t t2 /\ raw_of t2). split; [exact S2|]. destruct S2 as (_ & _ & M & U & _). intros u tg Nc. rewrite X, U. intros [= <-]. apply R. unfold has_method in *. congruence.
Qed.
Lemma same_line_hostname ip6 t : same_line t (check_uri_hostname ip6 t) /\ x_raw (check_uri_hostname ip6 t) = x_raw t.
Proof. unfold check_uri_hostname. destruct (parsed_hostname t); [|repeat split]. destruct (validate_hostname _ _); repeat split. Qed.
Lemma request_line_read_after l t0 t : same_line (fst (conn_parse_request_line (e_cfg e) l t0)) t -> raw_of t -> request_line_read (e_cfg e) t.
Proof.
  destruct (request_line_told (e_cfg e) l _ t0 (words_read (e_cfg e) l)) as [A [B1 B2 B3 B4 B5]]. intros (Q1 & Q2 & Q3 & Q4 & Q5) L.
  exists l, (words_of (e_cfg e) l). rewrite Q1. split; [exact A|]. split; [apply words_read|]. split.
  - constructor; rewrite ?Q1, ?Q2, ?Q3, ?Q4, ?Q5; assumption.
  - intros u tg Nc X T. apply (L u tg Nc X). rewrite Q4. now apply B3.
Qed.
(** Reading the request line up to the parameters; what is left is to look at the host. *)
Lemma agat_tx_parse_request_line t0 s : RI s -> cur SReq t0 s ->
  agat tx_parse_request_line s /\ forall a s', tx_parse_request_line e s = (ROk a, s') -> exists t, cur SReq t s' /\ uri_known t /\ same_line t0 t /\ raw_of t.
Proof.
  intros R C0. unfold tx_parse_request_line. split.
  - apply agat_ask; [reflexivity|]. apply agat_bind; [now apply ag_the_tx|]. intros t s1 E R1. destruct (cur_the _ _ _ _ E) as [C _]. clear E C0 s R.
    destruct (parse_request_uri _ _ t) as [t'|] eqn:P; [|now apply ag_fail]. apply agat_bind; [now apply ag_get|]. intros ? ? [= <- <-] _.
    apply agat_bind; [now apply ag_put_tx|]. intros ? s2 E R2. injection E as _ <-. pose proof (cur_put _ _ _ t' C) as C2. match type of R2 with RI ?x => set (s2 := x) in * end.
    apply agat_bind; [|intros; by_ag]. destruct (_ && _); cbn [when]; [|now apply ag_ret]. change (s_ridx s1) with (s_ridx s2). exact (agat_send_params _ _ _ R2 C2).
  - intros a s' H. apply bind_done in H. destruct H as (e0 & s0 & E0 & H). injection E0 as <- <-. apply bind_done in H. destruct H as (t & s1 & E & H). rewrite (the_cur _ _ _ C0) in E. injection E as <- <-. rename C0 into C.
    destruct (parse_request_uri _ _ t0) as [t'|] eqn:P; [|discriminate H]. apply bind_done in H. destruct H as (? & ? & E0 & H). injection E0 as <- <-.
    apply bind_done in H. destruct H as (? & s2 & E0 & H). injection E0 as _ <-. pose proof (cur_put _ _ _ t' C) as C2.
    match type of C2 with cur _ _ ?x => set (s2 := x) in * end. apply bind_done in H. destruct H as (? & s3 & E0 & H).
    assert (S : still s2 s3).
    { destruct (_ && _) in E0; cbn [when] in E0; [|injection E0 as _ <-; apply still_refl]. pose proof (send_params_still (s_ridx s) (query_params (c_dcfg (e_cfg e)) t') s2) as S. match type of E0 with _ = ?r => change (send_params (s_ridx s) (query_params (c_dcfg (e_cfg e)) t') e s2 = r) in E0 end. rewrite E0 in S. exact S. }
    apply mod_tx_post in H. destruct H as (v & Cv & _ & U). rewrite (U _ (still_cur _ _ _ _ S C2)) in Cv. eexists. split; [exact Cv|].
    split; [apply uri_known_hostname; exact (uri_known_after _ _ _ _ P)|]. destruct (same_line_uri _ _ _ _ P) as [S1 L1]. destruct (same_line_hostname (e_ip6 e) t') as [S2 X2].
    split; [exact (same_line_trans _ _ _ S1 S2)|]. destruct S2 as (_ & _ & M & V & _). intros u tg. unfold has_method. rewrite X2, M, V. apply L1.
Qed.
Lemma agat_state_request_line l t0 s : RI s -> cur SReq (fst (conn_parse_request_line (e_cfg e) l t0)) s -> agat state_request_line s.
Proof.
  intros R C0. unfold state_request_line. apply (agat_step _ _ _ _ _ _ _ (need_cur _ _ _ C0)); [now apply ag_need_tx|]. intros _. destruct (agat_tx_parse_request_line _ s R C0) as [A B].
  apply agat_bind; [exact A|]. intros a s1 E R1. destruct (B _ _ E) as (t & C & [K1 K2] & S0 & L). pose proof (request_line_read_after _ _ _ S0 L) as K3.
  assert (K : x_raw t <> None /\ x_parsed t <> None /\ request_line_read (e_cfg e) t) by auto. clear A B E s R C0.
  apply agat_bind; [now apply ag_get|]. intros ? ? [= <- <-] _.
  apply agat_bind; [apply (agat_hook_cur SReq _ _ _ R1 C); [exact K|intros j [= <-]; reflexivity]|]. intros ? s2 E R2.
  pose proof (still_tx_hook HRequestUriNormalize (s_ridx s1) s1) as S. rewrite E in S. cbn [snd] in S.
  replace (s_ridx s1) with (s_idx SReq s2) by apply S.
  apply agat_bind; [apply (agat_hook_cur SReq _ _ _ R2 (still_cur _ _ _ _ S C)); [exact K|intros j [= <-]; reflexivity]|]. intros. by_ag.
Qed.
(** * The rest of the request side *)
Lemma ag_request_chunked_length_loop n : forall d, ag (request_chunked_length_loop n d).
Proof. induction n as [|n IH]; intro d; cbn [request_chunked_length_loop]; ag_go. Qed.
Lemma ag_response_chunked_length_loop n : forall d, ag (response_chunked_length_loop n d).
Proof. induction n as [|n IH]; intro d; cbn [response_chunked_length_loop]; ag_go. Qed.
Hint Resolve ag_request_chunked_length_loop ag_response_chunked_length_loop : ag.
Lemma ag_body_chunked_data sd : ag (body_chunked_data sd). Proof. unfold body_chunked_data. ag_go. Qed.
Lemma ag_request_finalize_work w : ag (request_finalize_work w).
Proof. unfold request_finalize_work, request_finalize_line. ag_go. Qed.
Lemma ag_request_line_complete l : ag (request_line_complete l).
Proof.
  unfold request_line_complete. apply ag_bind; [ag_go|intros _]. destruct (is_nil l); [ag_go|]. apply ag_ask; [intro; reflexivity|]. apply ag_bind; [ag_go|intros _].
  destruct (is_line_ignorable _ _); [ag_go|]. intros s R. next s1 E R1. apply mod_tx_log_post in E. destruct E as (t & C & _). exact (agat_state_request_line _ _ _ R1 C).
Qed.
Hint Resolve ag_body_chunked_data ag_request_finalize_work ag_request_line_complete : ag.
Lemma ag_handle_request_state : ag handle_request_state.
Proof.
  unfold handle_request_state, request_idle, request_ignore_data_after_http_0_9, request_line, request_protocol, request_headers,
    request_connect_wait_response, request_connect_check, request_connect_probe_data, request_body_determine, request_body_chunked_length,
    request_body_chunked_data_end, request_body_identity, request_finalize. ag_go.
Qed.
Lemma ag_http_ahead d : ag (http_ahead d). Proof. unfold http_ahead. ag_go. Qed.
Hint Resolve ag_handle_request_state ag_http_ahead : ag.

(** * The head of a response, in the machine *)
Lemma still_receiver_send_data sd t s : cur sd t s -> still s (snd (receiver_send_data sd e s)).
Proof.
  intro C. unfold receiver_send_data, input. unfold bind at 1. destruct (pd_callback_data (s_input s)) as [d p']. unfold bind at 1, modify.
  set (s1 := set_s_input p' s). assert (C1 : cur sd t s1) by (destruct sd; exact C). unfold bind at 1. rewrite (need_cur _ _ _ C1). unfold bind at 1, get.
  assert (S : still s s1) by repeat split. destruct (d_recv (s_dir sd s1)); [|exact S]. eapply still_trans; [exact S|]. unfold data_hook, bind, call, check. destruct (e_cb e s1 _); repeat split.
Qed.
Lemma still_receiver_finalize_clear sd t s : cur sd t s -> still s (snd (receiver_finalize_clear sd e s)).
Proof.
  intro C. unfold receiver_finalize_clear. unfold bind at 1, get_d. destruct (d_recv (s_dir sd s)); [|apply still_refl]. unfold bind at 1, try.
  pose proof (still_receiver_send_data _ _ _ C) as S. destruct (receiver_send_data sd e s) as [[a|x| |] s1]; cbn [snd] in S; try exact S;
    (eapply still_trans; [exact S|]); destruct sd; repeat split.
Qed.
Lemma agat_state_response_headers t s : RI s -> cur SResp t s -> response_decided t -> agat state_response_headers s.
Proof.
  intros R C D. unfold state_response_headers. apply agat_bind; [now apply ag_receiver_finalize_clear|]. intros a s1 E R1.
  pose proof (still_receiver_finalize_clear _ _ _ C) as S. rewrite E in S. cbn [snd] in S. apply (still_cur _ _ _ _ S) in C.
  apply agat_bind; [|intros; by_ag]. apply agat_bind; [now apply ag_get|]. intros ? ? [= <- <-] _. apply (agat_hook_cur SResp _ _ _ R1 C); [exact D|intros j [= <-]; reflexivity].
Qed.
(** From the states whose current response is [t] and whose parser is in state [p]. *)
Definition agc {A} (p : pstate) (t : tx) (m : M A) : Prop := forall s, RI s -> cur SResp t s -> d_state (s_resp s) = p -> agat m s.
Definition calm {A} (m : M A) : Prop := forall s, still s (snd (m e s)) /\ d_state (s_resp (snd (m e s))) = d_state (s_resp s).
Lemma agc_ag A p t (m : M A) : ag m -> agc p t m. Proof. intros H s R _ _. now apply H. Qed.
Lemma agc_calm A B p t (m : M A) (k : A -> M B) : ag m -> calm m -> (forall a, agc p t (k a)) -> agc p t (bind m k).
Proof.
  intros Hm Hc Hk s R C P. apply agat_bind; [now apply Hm|]. intros a s1 E R1. destruct (Hc s) as [S D]. rewrite E in S, D. cbn [snd] in *.
  apply Hk; [exact R1|exact (still_cur _ _ _ _ S C)|congruence].
Qed.
Lemma agc_the A p t (k : tx -> M A) : agc p t (k t) -> agc p t (bind (the_tx SResp) k).
Proof. intros Hk s R C P. eapply agat_step; [exact (the_cur _ _ _ C)|now apply ag_the_tx|]. intros R1. now apply Hk. Qed.
Lemma agc_mod A p t f (k : unit -> M A) : agc p (f t) (k tt) -> agc p t (bind (mod_tx SResp f) k).
Proof.
  intros Hk s R C P. unfold mod_tx. eapply agat_step; [unfold bind; rewrite (the_cur _ _ _ C); reflexivity|now apply ag_mod_tx|]. intros R1. apply Hk; [exact R1|eapply cur_put; exact C|exact P].
Qed.
Lemma agc_state A p q t (k : unit -> M A) : agc q t (k tt) -> agc p t (bind (set_state SResp q) k).
Proof. intros Hk s R C P. eapply agat_step; [reflexivity|now apply ag_set_state|]. intros R1. apply Hk; [exact R1|exact C|reflexivity]. Qed.
Lemma agc_own A p t (k : dir -> M A) : (forall d, d_state d = p -> agc p t (k d)) -> agc p t (bind (get_d SResp) k).
Proof. intros Hk s R C P. eapply agat_step; [reflexivity|now apply ag_get_d|]. intros R1. now apply Hk. Qed.
Lemma agc_assoc A B C p t (m : M A) (k : A -> M B) (g : B -> M C) : agc p t (bind m (fun a => bind (k a) g)) -> agc p t (bind (bind m k) g).
Proof. intros H s R Cu P. specialize (H s R Cu P). unfold agat in *. now rewrite !bind_bind. Qed.
Lemma agc_when A p t b m (k : unit -> M A) : (b = true -> agc p t (bind m k)) -> (b = false -> agc p t (k tt)) -> agc p t (bind (when b m) k).
Proof. intros H1 H2. destruct b; [now apply H1|]. intros s R C P. exact (H2 eq_refl s R C P). Qed.
Lemma calm_logs l : calm (logs l).
Proof.
  unfold logs. induction l as [|m l IH]; intro s; cbn [for_each]; [split; [apply still_refl|reflexivity]|].
  set (s1 := if lg_level m <=? c_log_level (e_cfg e) then set_s_logs (mk_log (lg_level m) (lg_code m) :: s_logs s) s else s).
  change (still s (snd (for_each (fun m => log (lg_level m) (lg_code m)) l e s1)) /\ d_state (s_resp (snd (for_each (fun m => log (lg_level m) (lg_code m)) l e s1))) = d_state (s_resp s)).
  destruct (IH s1) as [A B]. assert (S : still s s1 /\ d_state (s_resp s1) = d_state (s_resp s)) by (unfold s1; destruct (_ <=? _); repeat split).
  destruct S as [S1 S2]. split; [eapply still_trans; eassumption|congruence].
Qed.
Lemma calm_log l c : calm (log l c). Proof. intro s. unfold log. cbn [snd]. destruct (_ <=? _); repeat split. Qed.
Lemma calm_get_d sd : calm (get_d sd). Proof. intro s. repeat split. Qed.
Lemma calm_modify f : (forall s, still s (f s) /\ d_state (s_resp (f s)) = d_state (s_resp s)) -> calm (modify f). Proof. intros H s. apply H. Qed.
Lemma agc_mod_last A p t f (k : unit -> M A) : agc p (f t) (k tt) -> agc p t (bind (mod_tx SResp f) (fun x => k x)). Proof. apply agc_mod. Qed.
Lemma agc_headers p t : response_decided t -> agc p t state_response_headers.
Proof. intros D s R C _. exact (agat_state_response_headers _ _ R C D). Qed.
Ltac calm_on := first [apply calm_logs | apply calm_log | apply calm_get_d | (apply calm_modify; intro; repeat split)].
Ltac walk1 :=
  lazymatch goal with
  | |- agc _ _ state_response_headers => apply agc_headers
  | |- agc _ _ (bind (bind _ _) _) => apply agc_assoc
  | |- agc _ _ (bind (the_tx SResp) _) => apply agc_the
  | |- agc _ _ (bind (mod_tx SResp _) _) => apply agc_mod
  | |- agc _ _ (bind (set_state SResp _) _) => apply agc_state
  | |- agc _ _ (bind (when _ _) _) => apply agc_when; intro
  | |- agc _ _ (bind (fail _) _) => apply agc_ag; intros ? ?; split; [reflexivity|assumption]
  | |- agc _ _ (bind (upd_d _ _) _) => apply agc_calm; [apply ag_upd_d; let d := fresh in let R := fresh in intros d R; exact R|apply calm_modify; intro; repeat split|intros _]
  | |- agc _ _ (bind (modify _) _) => apply agc_calm; [apply ag_modify; let d := fresh in let R := fresh in intros d R; exact R|apply calm_modify; intro; repeat split|intros _]
  | |- agc _ _ (bind (log _ _) _) => apply agc_calm; [apply ag_log|apply calm_log|intros _]
  | |- agc _ _ (bind (logs _) _) => apply agc_calm; [apply ag_logs|apply calm_logs|intros _]
  end.
Ltac walk := repeat walk1.
Lemma agc_framing t p : ~ bodiless t -> agc p t (bind (response_body_framing (cl_of t) (te_of t)) (fun _ => state_response_headers)).
Proof.
  intro B. unfold response_body_framing, set_progress, mod_txd. apply agc_assoc, agc_the. cbv zeta. set (ct := match headers_get_nocase_nozero _ (s2b "content-type") with Some _ => _ | None => _ end).
  apply agc_assoc.
  assert (W : forall u, same_head t u -> agc p u (bind
    (match match te_of t with Some h => if is_some (index_of_nocase_nozero (hd_value h) (s2b "chunked")) then Some h else None | None => None end, cl_of t with
    | Some te, _ =>
        when (negb (is_eq (cmp_nocase (hd_value te) (s2b "chunked")))) (log LvWarning "RESPONSE_ABNORMAL_TRANSFER_ENCODING") ;;
        when (proto_ltb (t_proton (x_resp t)) ProtoV1_1) (log LvWarning "RESPONSE_CHUNKED_OLD_PROTO") ;;
        mod_tx SResp (upd_dir SResp (set_t_coding CdChunked)) ;;
        when (is_some (cl_of t)) (mod_tx SResp (add_flag REQUEST_SMUGGLING)) ;;
        mod_tx SResp (upd_dir SResp (set_t_prog PBody)) ;;
        set_state SResp StChunkedLength
    | None, Some cl =>
        mod_tx SResp (upd_dir SResp (set_t_coding CdIdentity)) ;;
        when (fis_set (hd_flags cl) FIELD_REPEATED) (mod_tx SResp (add_flag REQUEST_SMUGGLING)) ;;
        let '(len, lg) := parse_content_length_log (hd_value cl) in
        logs lg ;;
        mod_tx SResp (upd_dir SResp (set_t_clen len)) ;;
        upd_d SResp (fun d => set_d_left len (set_d_clen len d)) ;;
        match len with
        | Some n => if n =? 0 then set_state SResp StFinalize
                    else set_state SResp StClKnown ;; mod_tx SResp (upd_dir SResp (set_t_prog PBody))
        | None => log LvError "INVALID_CONTENT_LENGTH_FIELD_IN_RESPONSE" ;; fail SError
        end
    | None, None =>
        if match ct with Some v => is_some (index_of_nocase v (s2b "multipart/byteranges")) | None => false end
        then log LvError "RESPONSE_MULTIPART_BYTERANGES" ;; fail SError
        else
          mod_tx SResp (upd_dir SResp (fun d => set_t_prog PBody (set_t_coding CdIdentity d))) ;;
          set_state SResp StStreamClose ;;
          upd_d SResp (set_d_left None)
    end) (fun _ => state_response_headers))).
  2:{ apply agc_when; intro; [apply agc_mod|]; apply W; repeat split. }
  intros u Hu. pose proof Hu as (Hu1 & Hu2 & Hu3). destruct (said_chunked t) eqn:Sc.
  - unfold said_chunked in Sc. destruct (te_of t) as [te|] eqn:Te; [|discriminate Sc]. rewrite Sc.
    walk; (eapply decided_chunked; [|exact B|unfold said_chunked; now rewrite Te| | |]);
      try (split; [exact Hu1|split; [exact Hu2|exact Hu3]]); try reflexivity; try congruence; (intro; unfold flagged; cbn [add_flag x_flags set_x_flags upd_dir set_x_dir set_x_resp]; now apply fis_set_added).
  - assert (Q : match te_of t with Some h => if is_some (index_of_nocase_nozero (hd_value h) (s2b "chunked")) then Some h else None | None => None end = None).
    { unfold said_chunked in Sc. destruct (te_of t) as [te|]; [now rewrite Sc|reflexivity]. }
    rewrite Q. destruct (cl_of t) as [cl|] eqn:Cl.
    + destruct (parse_content_length_log (hd_value cl)) as [[n|] lg] eqn:Pc; [|now walk]. walk; (destruct (n =? 0) eqn:N0; walk);
        (eapply (decided_length t); [split; [exact Hu1|split; [exact Hu2|exact Hu3]]|exact B|exact Sc|exact Cl|rewrite Pc; reflexivity|reflexivity|reflexivity|try (intros _; reflexivity); (apply N.eqb_eq in N0; intro; lia)|]);
        try congruence; (intro; unfold flagged; cbn [add_flag x_flags set_x_flags upd_dir set_x_dir set_x_resp]; now apply fis_set_added).
    + destruct (match ct with Some _ => _ | None => _ end); walk.
      eapply (decided_rest t); [split; [exact Hu1|split; [exact Hu2|exact Hu3]]|exact B|exact Sc|exact Cl|reflexivity|reflexivity].
Qed.
Lemma bodiless_iff t : bodiless t <-> is_method (x_methodn t) "HEAD" = true \/
  (in_range (x_statusn t) 100 199 || eq_num (x_statusn t) 204 || eq_num (x_statusn t) 304 = true /\ negb (is_some (te_of t)) && negb (is_some (cl_of t)) = true).
Proof.
  unfold bodiless. rewrite is_method_iff, !orb_true_iff, in_range_iff, !eq_num_iff, andb_true_iff, !lacks_iff. unfold te_of, cl_of.
  destruct (headers_get_nocase_nozero _ (s2b "transfer-encoding")), (headers_get_nocase_nozero _ (s2b "content-length")); cbn [is_some negb]; intuition discriminate.
Qed.
Lemma agc_presence t p : p <> StFinalize -> agc p t (response_body_presence (cl_of t) (te_of t)).
Proof.
  intro P. unfold response_body_presence, mod_txd. apply agc_the. pose proof (bodiless_iff t) as Bi.
  assert (F : forall p t, pstate_eqb p StFinalize = false -> ~ bodiless t -> agc p t (let* d := get_d SResp in when (negb (pstate_eqb (d_state d) StFinalize)) (response_body_framing (cl_of t) (te_of t)) ;; state_response_headers)).
  { clear - Same. intros p t P B. apply agc_own. intros d D. rewrite D, P. cbn [negb when]. now apply agc_framing. }
  assert (G : forall u, response_decided u -> agc StFinalize u (let* d := get_d SResp in when (negb (pstate_eqb (d_state d) StFinalize)) (response_body_framing (cl_of t) (te_of t)) ;; state_response_headers)).
  { clear - Same. intros u D. apply agc_own. intros d Ed. rewrite Ed. cbn [negb when pstate_eqb]. intros s R C Hs. apply agat_bind; [now apply ag_ret|]. intros ? ? [= <- <-] _. exact (agc_headers _ _ D s R C Hs). }
  assert (Pb : pstate_eqb p StFinalize = false) by (destruct p; try reflexivity; contradiction).
  destruct (is_method (x_methodn t) "HEAD").
  - walk. apply G. eapply decided_nobody; [|apply Bi; now left|reflexivity]. repeat split.
  - destruct (in_range _ _ _ || _ || _).
    + destruct (negb _ && negb _).
      * walk. apply G. eapply decided_nobody; [|apply Bi; right; auto|reflexivity]. repeat split.
      * walk. apply F; [exact Pb|]. rewrite Bi. intuition discriminate.
    + apply agc_calm; [apply ag_ret|intro; repeat split|intros _]. apply F; [exact Pb|]. rewrite Bi. intuition discriminate.
Qed.

Lemma agc_bind A B p t (m : M A) (k : A -> M B) : ag m -> (forall s a s', RI s -> cur SResp t s -> d_state (s_resp s) = p -> m e s = (ROk a, s') -> cur SResp t s' /\ d_state (s_resp s') = p) ->
  (forall a, agc p t (k a)) -> agc p t (bind m k).
Proof. intros Hm Hc Hk s R C P. apply agat_bind; [now apply Hm|]. intros a s1 E R1. destruct (Hc _ _ _ R C P E) as [C1 P1]. now apply Hk. Qed.
Lemma ag_resume_requests : ag resume_requests. Proof. unfold resume_requests. ag_go. Qed.
Hint Resolve ag_resume_requests : ag.
Lemma calm_resume : calm resume_requests.
Proof. intro s. unfold resume_requests, bind, get_d. destruct (negb _); repeat split. Qed.
Lemma calm_set_status sd x : calm (set_status sd x). Proof. intro s. destruct sd; repeat split. Qed.
Lemma calm_set_state_req x : calm (set_state SReq x). Proof. intro s. repeat split. Qed.
Lemma calm_when b m : calm m -> calm (when b m). Proof. intro H. destruct b; [exact H|intro s; repeat split]. Qed.
Lemma calm_ret A (a : A) : calm (ret a). Proof. intro s. repeat split. Qed.
Lemma calm_bind A B (m : M A) (k : A -> M B) : calm m -> (forall a, calm (k a)) -> calm (bind m k).
Proof.
  intros Hm Hk s. unfold bind. destruct (Hm s) as [S D]. destruct (m e s) as [[a|x| |] s1]; cbn [snd] in *; try (split; assumption).
  destruct (Hk a s1) as [S1 D1]. split; [eapply still_trans; eassumption|congruence].
Qed.
Lemma agc_h2 A p t b (k : unit -> M A) : (forall u, same_head t u -> agc p u (k tt)) -> agc p t (bind (when b (mod_tx SResp (set_x_h2 true))) k).
Proof. intro H. apply agc_when; intro; [apply agc_mod|]; apply H; repeat split. Qed.
Lemma tunnels_101 t : status_in t 101 101 -> negb (is_some (te_of t)) && negb (is_some (cl_of t)) = true -> tunnels t.
Proof.
  intros S B. right. split; [exact S|]. rewrite !lacks_iff. unfold te_of, cl_of in B.
  destruct (headers_get_nocase_nozero _ (s2b "transfer-encoding")), (headers_get_nocase_nozero _ (s2b "content-length")); try discriminate B; auto.
Qed.
Lemma agc_determine t p : p <> StFinalize -> agc p t response_body_determine.
Proof.
  intro P. unfold response_body_determine. intros s R C Hs. eapply agat_step; [exact (need_cur _ _ _ C)|now apply ag_need_tx|]. intros _. revert s R C Hs. change (agc p t
    (if is_method (x_methodn t) "CONNECT" && in_range (x_statusn t) 200 299 then set_state SResp StFinalize ;; state_response_headers else
     when (is_method (x_methodn t) "CONNECT") (resume_requests ;; when (negb (eq_num (x_statusn t) 407)) (modify (set_s_other_at_end true))) ;;
     let* t := the_tx SResp in
     let hs := t_headers (x_resp t) in
     let cl := headers_get_nocase_nozero hs (s2b "content-length") in
     let te := headers_get_nocase_nozero hs (s2b "transfer-encoding") in
     let* dq := get_d SReq in
     if eq_num (x_statusn t) 101 then
       when (match headers_get_nocase_nozero hs (s2b "upgrade") with
             | Some h => is_some (index_of_nocase_nozero (hd_value h) (s2b "h2c"))
             | None => false
             end) (mod_tx SResp (set_x_h2 true)) ;;
       if negb (is_some te) && negb (is_some cl) then
         set_state SResp StFinalize ;;
         when (negb (sstate_eqb (d_status dq) SsError)) (set_status SReq SsTunnel) ;;
         set_status SResp SsTunnel ;;
         state_response_headers
       else
         log LvWarning "SWITCHING_PROTO_WITH_CONTENT_LENGTH" ;;
         response_body_presence cl te
     else if eq_num (x_statusn t) 100 && negb (is_some te) then
       let '(len, lg) := match cl with Some h => parse_content_length_log (hd_value h) | None => (None, []) end in
       logs lg ;;
       if positive len then response_body_presence cl te
       else
         when (x_seen100 t) (log LvError "CONTINUE_ALREADY_SEEN") ;;
         set_state SResp StLine ;;
         mod_tx SResp (fun t => set_x_seen100 true (upd_dir SResp (fun d => set_t_prog PLine (set_t_headers [] d)) t))
     else
       when (in_range (x_statusn t) 400 499 && positive (d_clen dq) &&
             (match d_left dq, d_clen dq with Some a, Some b => a =? b | None, None => true | _, _ => false end))
            (match headers_get_nocase (t_headers (x_req t)) (s2b "expect") with
             | Some h => when (bytes_eqb (hd_value h) (s2b "100-continue")) (set_state SReq StFinalize)
             | None => ret tt
             end) ;;
       response_body_presence cl te)).
  destruct (is_method (x_methodn t) "CONNECT" && in_range (x_statusn t) 200 299) eqn:Cn.
  { walk. apply andb_prop in Cn. destruct Cn as [C1 C2]. apply (decided_tunnel t); [repeat split|]. left. split; [now apply is_method_iff|now apply in_range_iff]. }
  apply agc_calm; [ag_go|apply calm_when, calm_bind; [apply calm_resume|intros _; apply calm_when, calm_modify; repeat split]|intros _].
  apply agc_the. cbv zeta. apply agc_calm; [ag_go|apply calm_get_d|]. intro dq.
  destruct (eq_num (x_statusn t) 101) eqn:S1.
  - apply agc_h2. intros u Hu. destruct (negb _ && negb _) eqn:Nb.
    + walk; try (apply agc_calm; [ag_go|apply calm_set_status|intros _]; walk; try (apply agc_calm; [ag_go|apply calm_set_status|intros _]; walk));
        (apply (decided_tunnel t); [exact Hu|]; apply tunnels_101; [now apply eq_num_iff|exact Nb]).
    + walk. fold (cl_of t) (te_of t). replace (cl_of t) with (cl_of u) by (unfold cl_of; f_equal; apply Hu). replace (te_of t) with (te_of u) by (unfold te_of; f_equal; apply Hu). now apply agc_presence.
  - destruct (eq_num (x_statusn t) 100 && _).
    + destruct (match headers_get_nocase_nozero _ _ with Some _ => _ | None => _ end) as [len lg]. apply agc_calm; [ag_go|apply calm_logs|intros _].
      destruct (positive len); [now apply agc_presence|]. apply agc_ag. ag_go.
    + apply agc_calm; [ag_go| |intros _; now apply agc_presence]. apply calm_when. destruct (headers_get_nocase _ _); [apply calm_when, calm_set_state_req|apply calm_ret].
Qed.

Lemma agat_response_body_determine s : RI s -> d_state (s_resp s) = StBodyDetermine -> agat response_body_determine s.
Proof.
  intros R D. destruct (need_tx SResp e s) as [[t|x| |] s1] eqn:E.
  2-4: (unfold response_body_determine; apply agat_bind; [now apply ag_need_tx|]; intros a s2 E2 _; rewrite E in E2; discriminate E2).
  destruct (cur_need _ _ _ _ E) as [C _]. pose proof (ag_need_tx SResp s R) as [E1 R1]. rewrite E in R1, E1. cbn [snd] in R1.
  assert (D1 : d_state (s_resp s1) = StBodyDetermine).
  { unfold need_tx, bind, cur_tx in E. destruct tx_get; [injection E as _ <-; exact D|]. destruct (_ <=? _); [discriminate E|]. injection E as _ <-. exact D. }
  destruct (agc_determine t StBodyDetermine ltac:(discriminate) s1 R1 C D1) as [A B].
  assert (Z : response_body_determine e s = response_body_determine e s1).
  { unfold response_body_determine. unfold bind at 1. rewrite E. symmetry. unfold bind at 1. rewrite (need_cur _ _ _ C). reflexivity. }
  assert (Z' : response_body_determine e' s = response_body_determine e' s1).
  { unfold response_body_determine. unfold bind at 1. rewrite <- E1. symmetry. unfold bind at 1. destruct (ag_need_tx SResp s1 R1) as [E2 _]. rewrite <- E2, (need_cur _ _ _ C). reflexivity. }
  split; [congruence|]. now rewrite Z.
Qed.
Definition fixed {A} (m : M A) : Prop := forall s, idle s (snd (m e s)).
Lemma fixed_ok A (m : M A) : (forall i, ok 2 SResp false i m) -> fixed m.
Proof. intros H s. specialize (H (s_idx SResp s) e s eq_refl ltac:(discriminate)). split; [apply (rl_ridx _ _ _ _ _ H)|apply (rl_pidx _ _ _ _ _ H)]. Qed.
Definition agi {A} (i : N) (m : M A) : Prop := forall s, RI s -> s_pidx s = i -> agat m s.
Lemma agi_bind A B i (m : M A) (k : A -> M B) : ag m -> fixed m -> (forall a, agi i (k a)) -> agi i (bind m k).
Proof. intros Hm Hf Hk s R P. apply agat_bind; [now apply Hm|]. intros a s1 E R1. specialize (Hf s). rewrite E in Hf. apply Hk; [exact R1|]. destruct Hf as [_ F]. cbn [snd] in F. congruence. Qed.
Lemma agi_ag A i (m : M A) : ag m -> agi i m. Proof. intros H s R _. now apply H. Qed.
Lemma agi_trailer i : agi i (response_trailer_done i).
Proof.
  unfold response_trailer_done. apply agi_bind; [ag_go|apply fixed_ok; intro; apply ok_receiver_finalize_clear|]. intros _ s R P.
  apply agat_bind; [|intros; by_ag]. apply agat_tx_hook; [exact R|]. intros t _. split; [exact I|]. intros j [= <-]. now symmetry.
Qed.
Lemma ag_response_headers : ag response_headers.
Proof.
  unfold response_headers. intros s R. apply agat_bind; [now apply ag_get|]. intros ? ? [= <- <-] _. cbv zeta.
  match goal with |- agat ?m s => cut (agi (s_pidx s) m) end; [intro H; now apply H|].
  destruct (sstate_eqb _ _).
  - apply agi_bind; [ag_go|apply fixed_ok; intro; apply ok_need0|]. intros _. apply agi_bind; [ag_go|apply fixed_ok; intro; ok_go|]. intros _.
    apply agi_bind; [ag_go|apply fixed_ok; intro; ok_go|]. intros _. apply agi_bind; [ag_go|apply fixed_ok; intro; ok_go|]. intros _. apply agi_trailer.
  - apply agi_bind; [ag_go|apply fixed_ok; intro; ok_go|]. intros _. apply agi_bind; [ag_go|apply fixed_ok; intro; ok_go|]. intros p.
    apply agi_bind; [ag_go|apply fixed_ok; intro; ok_go|]. intros [remaining eoh]. destruct (_ || _); [|apply agi_ag; ag_go].
    apply agi_bind; [ag_go|apply fixed_ok; intro; ok_go|]. intros _. apply agi_bind; [ag_go|apply fixed_ok; intro; apply ok_the0|]. intro t. destruct (prog_eqb _ _); [apply agi_ag; ag_go|apply agi_trailer].
Qed.
Lemma ag_response_line_complete l : ag (response_line_complete l).
Proof.
  unfold response_line_complete. apply ag_bind; [ag_go|intros _]. destruct (is_nil l); [ag_go|]. apply ag_ask; [intro; reflexivity|]. apply ag_bind; [ag_go|intros _].
  destruct (is_line_ignorable _ _); [ag_go|]. intros s R. next s1 E R1. apply mod_tx_post in E. destruct E as (t & C & _).
  destruct (treat_response_line_as_body l); [by_ag|]. next s2 E R2. apply mod_tx_log_post in E. destruct E as (u & C2 & _ & U). rewrite (U _ C) in C2.
  apply agat_bind; [|intros; by_ag]. exact (agat_state_response_line _ _ _ R2 C2 eq_refl).
Qed.
Lemma ag_response_finalize_work w : ag (response_finalize_work w). Proof. unfold response_finalize_work. ag_go. Qed.
Hint Resolve ag_response_headers ag_response_line_complete ag_response_finalize_work : ag.
Lemma ag_handle_response_state : ag handle_response_state.
Proof.
  unfold handle_response_state. intros s R. apply agat_bind; [now apply ag_get_d|]. intros ? ? [= <- <-] _. cbn [s_dir]. destruct (d_state (s_resp s)) eqn:D.
  all: try (apply (agat_response_body_determine s R); exact D).
  all: match goal with |- agat ?m _ => assert (Z : ag m); [|now apply Z] end.
  all: unfold response_idle, response_line, response_body_chunked_length, response_body_chunked_data_end,
    response_finalize, response_body_identity_stream_close, response_body_identity_cl_known; ag_go.
Qed.
Hint Resolve ag_handle_response_state : ag.
Lemma ag_handle_state sd : ag (handle_state sd). Proof. unfold handle_state. ag_go. Qed.
Lemma ag_after_step sd rc : ag (after_step sd rc). Proof. unfold after_step. ag_go. Qed.
Hint Resolve ag_handle_state ag_after_step : ag.
Lemma ag_step1 sd : ag (step sd). Proof. unfold step. ag_go. Qed.
Hint Resolve ag_step1 : ag.
Lemma ag_data_loop sd n : ag (data_loop sd n). Proof. induction n as [|n IH]; cbn [data_loop]; ag_go. Qed.
Hint Resolve ag_data_loop : ag.
Lemma ag_mark_gap sd : ag (mark_gap sd). Proof. unfold mark_gap. ag_go. Qed.
Hint Resolve ag_mark_gap : ag.
Lemma ag_count_data sd n : ag (modify (count_data sd n)). Proof. destruct sd; cbn [count_data]; ag_go. Qed.
Hint Resolve ag_count_data : ag.
Lemma ag_data_call sd c : ag (data_call sd c).
Proof. unfold data_call. destruct sd; ag_go. Qed.
Lemma ag_close_status sd : ag (close_status sd). Proof. unfold close_status. ag_go. Qed.
Hint Resolve ag_data_call ag_close_status : ag.
Lemma ag_flush : c_flush (e_cfg e) = true -> ag flush_incomplete_transactions.
Proof.
  intro F. unfold flush_incomplete_transactions. apply ag_ask; [intro; reflexivity|]. apply ag_bind; [ag_go|]. intro s0. apply ag_for_each. intro i. apply ag_bind; [|intro; ag_go].
  apply ag_ignore. intros s R. apply agat_tx_hook; [exact R|]. intros t _. split; [left; exact F|discriminate].
Qed.
Lemma ag_run_op o : ag (run_op o).
Proof.
  unfold run_op. destruct o; try (ag_go; fail). do 4 (apply ag_bind; [ag_go|intros _]). apply ag_ask; [intro; reflexivity|]. apply ag_bind; [|intro; ag_go].
  destruct (c_flush (e_cfg e)) eqn:F; [|intros s R; now apply ag_ret]. now apply ag_flush.
Qed.
Hint Resolve ag_run_op : ag.
Lemma ag_run_ops l : ag (run_ops l). Proof. induction l as [|o l IH]; cbn [run_ops]; ag_go. Qed.
Theorem stages_only l : history e l = history e' l.
Proof. apply ag_run_ops. repeat split. intros [|y pre] ev x post; discriminate. Qed.
Theorem stages_found l : answered (snd (history e l)).
Proof. apply ag_run_ops. repeat split. intros [|y pre] ev x post; discriminate. Qed.
End Stage.
Lemma stages_ok e : (forall s ev, in_stage (e_cfg e) s ev -> e_cb e s ev = SOk) ->
  forall l ev x, In (ev, x) (s_trace (snd (history e l))) -> x = SOk.
Proof.
  intros H l ev x I. destruct (in_split _ _ I) as (a & b & E). destruct (stages_found e (e_cb e) (fun _ _ _ => eq_refl) l _ _ _ _ E) as (s & _ & S & ->). now apply H.
Qed.
Lemma request_headers_found e l later i d x past : s_trace (snd (history e l)) = later ++ (mk_ev HRequestHeaders i d, x) :: past ->
  exists s t, s_trace s = past /\ tx_get i (s_txs s) = Some t /\ i = s_ridx s /\ request_decided t /\ x = e_cb e s (mk_ev HRequestHeaders i d).
Proof.
  intro E. destruct (stages_found e (e_cb e) (fun _ _ _ => eq_refl) l _ _ _ _ E) as (s & P & [(t & G & [_ S]) T] & X). exists s, t. exact (conj P (conj G (conj (T _ eq_refl) (conj S X)))).
Qed.
Lemma request_headers_ok e : (forall s i d t, tx_get i (s_txs s) = Some t -> request_decided t -> e_cb e s (mk_ev HRequestHeaders i d) = SOk) ->
  forall l i d x, In (mk_ev HRequestHeaders i d, x) (s_trace (snd (history e l))) -> x = SOk.
Proof. intros H l i d x I. destruct (in_split _ _ I) as (a & b & E). destruct (request_headers_found _ _ _ _ _ _ _ E) as (s & t & _ & G & _ & S & ->). now apply (H s i d t). Qed.
Lemma response_headers_found e l later i d x past : s_trace (snd (history e l)) = later ++ (mk_ev HResponseHeaders i d, x) :: past ->
  exists s t, s_trace s = past /\ tx_get i (s_txs s) = Some t /\ i = s_pidx s /\ response_decided t /\ x = e_cb e s (mk_ev HResponseHeaders i d).
Proof.
  intro E. destruct (stages_found e (e_cb e) (fun _ _ _ => eq_refl) l _ _ _ _ E) as (s & P & [(t & G & S) T] & X). exists s, t. exact (conj P (conj G (conj (T _ eq_refl) (conj S X)))).
Qed.
Lemma response_headers_ok e : (forall s i d t, tx_get i (s_txs s) = Some t -> response_decided t -> e_cb e s (mk_ev HResponseHeaders i d) = SOk) ->
  forall l i d x, In (mk_ev HResponseHeaders i d, x) (s_trace (snd (history e l))) -> x = SOk.
Proof. intros H l i d x I. destruct (in_split _ _ I) as (a & b & E). destruct (response_headers_found _ _ _ _ _ _ _ E) as (s & t & _ & G & _ & S & ->). now apply (H s i d t). Qed.
Lemma request_line_found e l later h i d x past : (h = HRequestLine \/ h = HRequestUriNormalize) -> s_trace (snd (history e l)) = later ++ (mk_ev h i d, x) :: past ->
  exists s t, s_trace s = past /\ tx_get i (s_txs s) = Some t /\ i = s_ridx s /\ request_line_read (e_cfg e) t /\ x = e_cb e s (mk_ev h i d).
Proof.
  intros H E. destruct (stages_found e (e_cb e) (fun _ _ _ => eq_refl) l _ _ _ _ E) as (s & P & [(t & G & S) T] & X). exists s, t. split; [exact P|]. split; [exact G|].
  destruct H as [-> | ->]; destruct S as (_ & _ & S); (split; [exact (T _ eq_refl)|]); auto.
Qed.
Lemma request_line_ok e : (forall s h i d t, h = HRequestLine \/ h = HRequestUriNormalize -> tx_get i (s_txs s) = Some t -> request_line_read (e_cfg e) t -> e_cb e s (mk_ev h i d) = SOk) ->
  forall l h i d x, h = HRequestLine \/ h = HRequestUriNormalize -> In (mk_ev h i d, x) (s_trace (snd (history e l))) -> x = SOk.
Proof. intros H l h i d x K I. destruct (in_split _ _ I) as (a & b & E). destruct (request_line_found _ _ _ _ _ _ _ _ K E) as (s & t & _ & G & _ & S & ->). now apply (H s h i d t). Qed.
Lemma status_line_found e l later i d x past : s_trace (snd (history e l)) = later ++ (mk_ev HResponseLine i d, x) :: past ->
  exists s t, s_trace s = past /\ tx_get i (s_txs s) = Some t /\ i = s_pidx s /\ status_line_read t /\ x = e_cb e s (mk_ev HResponseLine i d).
Proof.
  intro E. destruct (stages_found e (e_cb e) (fun _ _ _ => eq_refl) l _ _ _ _ E) as (s & P & [(t & G & [_ S]) T] & X). exists s, t. exact (conj P (conj G (conj (T _ eq_refl) (conj S X)))).
Qed.
Lemma status_line_ok e : (forall s i d t, tx_get i (s_txs s) = Some t -> status_line_read t -> e_cb e s (mk_ev HResponseLine i d) = SOk) ->
  forall l i d x, In (mk_ev HResponseLine i d, x) (s_trace (snd (history e l))) -> x = SOk.
Proof. intros H l i d x I. destruct (in_split _ _ I) as (a & b & E). destruct (status_line_found _ _ _ _ _ _ _ E) as (s & t & _ & G & _ & S & ->). now apply (H s i d t). Qed.
