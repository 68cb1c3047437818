(** One step of a state machine. *)
From Verif Require Import Base ModelState ModelTx ModelConn Spec.
From Verif Require Import ProofsBase ProofsParsers ProofsHeaders ProofsConn ProofsCore.

(** * Inputs *)
Definition total (p : pdata) : N :=
  match pd_gap p with Some g => g | None => match pd_data p with Some d => blen d | None => 0 end end.
Definition wfp (p : pdata) : Prop := pd_pos p <= total p /\ (pd_gap p <> None -> pd_data p = None).
Definition avail (p : pdata) : N := match pd_gap p with Some _ => 0 | None => total p - pd_pos p end.

Lemma blen_skipn n (l : bytes) : blen (skipn n l) = blen l - N.of_nat n.
Proof. unfold blen. rewrite skipn_length. lia. Qed.
Lemma blen_firstn n (l : bytes) : blen (firstn n l) = N.min (N.of_nat n) (blen l).
Proof. unfold blen. rewrite firstn_length. lia. Qed.
Lemma blen_app (a b : bytes) : blen (a ++ b) = blen a + blen b.
Proof. unfold blen. rewrite app_length. lia. Qed.
Lemma blen_nil : blen [] = 0.
Proof. reflexivity. Qed.
Lemma is_nil_blen (l : bytes) : is_nil l = (blen l =? 0).
Proof. destruct l; [reflexivity|]. cbn [is_nil]. symmetry. apply N.eqb_neq. unfold blen. cbn [length]. lia. Qed.
Lemma slice_len p : wfp p -> blen (pd_as_slice p) = avail p.
Proof.
  intros [L G]. unfold pd_as_slice, pd_unconsumed, avail, total in *. destruct (pd_gap p).
  - rewrite G by discriminate. reflexivity.
  - destruct (pd_data p) as [d|]; [|reflexivity]. destruct (_ <=? _) eqn:E; [|lia]. rewrite blen_skipn. lia.
Qed.
Lemma pd_len_total p : wfp p -> pd_len p = total p - pd_pos p.
Proof.
  intros W. pose proof (slice_len p W) as L. destruct W as [W G]. unfold pd_len, avail, total in *. destruct (pd_gap p).
  - destruct (_ <=? _) eqn:E; lia.
  - exact L.
Qed.
Lemma total_pos x p : total (set_pd_pos x p) = total p.
Proof. reflexivity. Qed.
Lemma avail_le p : avail p <= total p - pd_pos p.
Proof. unfold avail. destruct (pd_gap p); lia. Qed.
Lemma avail_pos x p : avail (set_pd_pos x p) = match pd_gap p with Some _ => 0 | None => total p - x end.
Proof. reflexivity. Qed.
Lemma avail_gap p : pd_is_gap p = true -> avail p = 0.
Proof. unfold pd_is_gap, avail. destruct (pd_gap p); [reflexivity|discriminate]. Qed.
Lemma avail_nogap p : pd_is_gap p = false -> avail p = total p - pd_pos p.
Proof. unfold pd_is_gap, avail. destruct (pd_gap p); [discriminate|reflexivity]. Qed.

(** * The measure of the loop *)
Definition rank (sd : side) (x : pstate) : N :=
  match sd, x with
  | SReq, StProtocol => 10
  | SReq, StHeaders => 9
  | SReq, (StConnectCheck | StConnectWait) => 8
  | SReq, (StBodyDetermine | StConnectProbe) => 7
  | SReq, (StChunkedLength | StChunkedData | StChunkedDataEnd | StIdentity) => 6
  | SResp, StHeaders => 9
  | SResp, StBodyDetermine => 8
  | SResp, (StChunkedLength | StChunkedData | StChunkedDataEnd) => 7
  | SResp, (StStreamClose | StClKnown) => 6
  | _, StFinalize => 3
  | _, StIdle => 2
  | _, StLine => 1
  | _, _ => 0
  end.
(** Bytes that a step can still take: those of the input, and those of the buffer, which are given back once. *)
Definition weight (sd : side) (d : dir) (a : N) : N :=
  match d_state d with
  | StIdle | StLine => 16 * (a + N.min (blen (d_buf d)) 1) + rank sd (d_state d)
  | StStreamClose => if sstate_eqb (d_status d) SsClosed then 16 * (a + 2 * blen (d_buf d)) + rank sd StStreamClose else 0
  | StIgnore09 => 0
  | x => 16 * (a + 2 * blen (d_buf d)) + rank sd x
  end.

(** * What a step keeps *)
Definition ok_core (e : env) (c : core) : Prop :=
  wfp (k_p c) /\ d_consumed (k_d c) = pd_pos (k_p c) /\ bufsum (k_d c) <= c_field_limit (e_cfg e).
(** The other direction keeps everything but its status and its state. *)
Definition others (d : dir) : dir := set_d_status SsNew (set_d_state StNone d).
(** Its status: it is not closed by a step, and a failed request stream stays so. *)
Definition hold (sd : side) (o0 o : dir) : Prop :=
  (d_status o = SsClosed -> d_status o0 = SsClosed) /\ (sd = SResp -> d_status o0 = SsError -> d_status o = SsError).
Lemma hold_refl sd o : hold sd o o.
Proof. split; auto. Qed.
Lemma hold_trans sd a b c : hold sd a b -> hold sd b c -> hold sd a c.
Proof. intros [H1 H2] [H3 H4]. split; auto. Qed.
Definition good (e : env) (sd : side) (c0 : core) (r : res unit) (c : core) : Prop :=
  nofault r /\ ok_core e c /\ set_pd_pos 0 (k_p c) = set_pd_pos 0 (k_p c0) /\ others (k_o c) = others (k_o c0) /\
  (d_status (k_d c) = SsClosed -> d_status (k_d c0) = SsClosed) /\
  hold sd (k_o c0) (k_o c) /\
  match r with
  | ROk _ => (d_status (k_d c) = SsTunnel \/ weight sd (k_d c) (avail (k_p c)) < weight sd (k_d c0) (avail (k_p c0))) /\
             (sd = SReq -> d_state (k_d c) = StHeaders -> k_h c = true)
  | _ => True
  end.
(** Before a step: the input of a closed stream is empty, and a gap has been let through. *)
Definition ready (e : env) (sd : side) (c : core) : Prop :=
  ok_core e c /\ (d_status (k_d c) = SsClosed -> pd_gap (k_p c) = None /\ total (k_p c) = 0) /\
  (pd_is_gap (k_p c) = true -> gap_allowed sd (d_state (k_d c)) = true).

Ltac kred := cbn [k_d k_p k_o k_h move lose d_status d_consumed d_buf d_header d_clen d_left d_chunk d_state d_prev d_recv
  set_d_status set_d_consumed set_d_buf set_d_header set_d_clen set_d_left set_d_chunk set_d_state set_d_prev set_d_recv
  pd_pos set_pd_pos pd_gap pd_data] in *.
Ltac side_calm :=
  first [ refine (wpc_calm _ _ false _ _ _ _ _ _); [solve [auto 2 with calm]|intro; discriminate|]
        | refine (wpc_calm _ _ true _ _ _ _ _ _); [solve [auto 2 with calm]|intros _; reflexivity|] ];
  let F1 := fresh in let F2 := fresh in
  intros [?a|?x| |] [F1 F2]; try congruence; clear F1 F2; cbv beta iota.
Ltac wstep :=
  lazymatch goal with
  | |- wpc _ _ (bind _ _) _ _ => apply wpc_bind
  | |- wpc _ _ (ret _) _ _ => apply wpc_ret; cbv beta iota
  | |- wpc _ _ (fail _) _ _ => apply wpc_fail; cbv beta iota
  | |- wpc _ _ get _ _ => apply wpc_get; intros ?s ?Hs; cbv beta iota
  | |- wpc _ _ ask _ _ => apply wpc_ask; cbv beta iota
  | |- wpc SReq _ (get_d SReq) _ _ => apply wpc_get_d; intros ?v; cbv beta iota
  | |- wpc SResp _ (get_d SResp) _ _ => apply wpc_get_d; intros ?v; cbv beta iota
  | |- wpc _ _ (get_d SReq) _ _ => apply (wpc_get_o SResp); intros ?v; cbv beta iota
  | |- wpc _ _ input _ _ => apply wpc_input; intros ?cb; cbv beta iota
  | |- wpc _ _ slice _ _ => apply wpc_slice; cbv beta iota
  | |- wpc _ _ (need_tx _) _ _ => apply wpc_need; [intros ?t|]; cbv beta iota
  | |- wpc _ _ (the_tx _) _ _ => apply wpc_the; [reflexivity|intros ?t]; cbv beta iota
  | |- wpc SReq _ (upd_d SReq _) _ _ => apply wpc_upd; [reflexivity|]; cbv beta iota
  | |- wpc SResp _ (upd_d SResp _) _ _ => apply wpc_upd; [reflexivity|]; cbv beta iota
  | |- wpc SReq _ (upd_d SResp _) _ _ => apply (wpc_updo SReq); [reflexivity|]; cbv beta iota
  | |- wpc SResp _ (upd_d SReq _) _ _ => apply (wpc_updo SResp); [reflexivity|]; cbv beta iota
  | |- wpc _ _ (set_state _ _) _ _ => unfold set_state
  | |- wpc _ _ (set_status _ _) _ _ => unfold set_status
  | |- wpc _ _ (consume _ _) _ _ => apply wpc_consume; cbv beta iota
  | |- wpc _ _ (unconsume _ _) _ _ => apply wpc_unconsume; cbv beta iota
  | |- wpc _ _ (take_buf _) _ _ => apply wpc_take_buf; cbv beta iota
  | |- wpc _ _ (check_buffer_limit _ _) _ _ => apply wpc_check_buffer_limit; [intros ?Hlim|]; cbv beta iota
  | |- wpc _ _ (check_limit_if_buffered _ _) _ _ => apply wpc_check_limit_if_buffered; [intros _|]; cbv beta iota
  | |- wpc _ _ (log _ _) _ _ => apply wpc_log; cbv beta iota
  | |- wpc _ _ (try _) _ _ => apply wpc_try
  | |- wpc _ _ (ignore _) _ _ => apply wpc_ignore
  | |- wpc _ _ (when ?b _) _ _ => unfold when
  | |- wpc _ _ request_next _ _ => apply wpc_request_next; cbv beta iota
  | |- wpc _ _ response_next _ _ => apply wpc_response_next; cbv beta iota
  | |- wpc _ _ (receiver_send_data _) _ _ => apply wpc_receiver_send_data; intros [?a|?x| |] [?F1 ?F2]; try congruence; cbv beta iota
  | |- wpc _ _ (receiver_finalize_clear _) _ _ =>
      apply wpc_receiver_finalize_clear; intros [?a|?x| |] [?F1 ?F2]; try congruence; cbv beta iota
  | |- wpc _ _ (modify _) _ _ => apply wpc_modify; [let s := fresh in let H := fresh in intros s H; exact H|]; cbv beta iota
  | |- wpc _ _ (match ?b with _ => _ end) _ _ => destruct b eqn:?
  | |- wpc _ _ (let _ := _ in _) _ _ => cbv zeta
  | |- wpc _ _ _ _ _ => side_calm
  end.
Ltac wgo := repeat (wstep; kred).

(** The end of a step: an arithmetic comparison. *)
Ltac norm :=
  repeat match goal with
  | H : wfp ?p |- _ => progress unfold wfp in H
  | |- context [avail (set_pd_pos ?x ?p)] => change (avail (set_pd_pos x p)) with (match pd_gap p with Some _ => 0 | None => total p - x end)
  end.

(** * Phase changes *)
(** Results of the phase changes, on the core: the same input and direction but for its state and body counters. *)
Definition keep_d (d : dir) : dir := set_d_state StNone (set_d_left None (set_d_clen None (set_d_chunk None d))).
Definition restated (c c' : core) : Prop := k_p c' = k_p c /\ k_o c' = k_o c /\ keep_d (k_d c') = keep_d (k_d c).
Definition sends (c : core) (X : pstate -> Prop) (Q : res unit -> core -> Prop) : Prop :=
  forall r c', nofault r -> restated c c' -> (r = ROk tt -> X (d_state (k_d c'))) -> Q r c'.
Ltac sent H := apply H; [split; discriminate|repeat split|try discriminate; intros _; kred].

Lemma sends_err c X Q : sends c X Q -> forall x, Q (RErr x) c.
Proof. intros H x. sent H. Qed.
Lemma sends_err' c X Q : sends c X Q -> forall x h, Q (RErr x) (mk_core (k_d c) (k_p c) (k_o c) h).
Proof. intros H x h. sent H. Qed.

Lemma wpc_state_request_complete e c Q : sends c (fun x => x = StIdle \/ x = StIgnore09) Q ->
  wpc SReq e state_request_complete c Q.
Proof.
  intros H. unfold state_request_complete.
  wstep. wstep; [|sent H].
  wstep. apply (wpc_conseq _ _ _ _ (fun r c' => nofault r /\ c' = mk_core (k_d c) (k_p c) (k_o c) true)).
  { wgo; split; (split; discriminate) || reflexivity. }
  intros r c' [F ->]. destruct r as [[]|x| |]; [|sent H|destruct F; congruence|destruct F; congruence].
  wgo; sent H. destruct (x_is09 _); auto.
Qed.
Lemma wpc_state_request_headers e c Q : sends c (fun x => x = StFinalize \/ x = StConnectCheck) Q ->
  wpc SReq e state_request_headers c Q.
Proof.
  intros H. unfold state_request_headers. wstep. wstep; [|sent H].
  wstep. wstep; [|sent H]. cbv zeta. wstep; [wgo; sent H; auto|].
  wstep; [|wgo; sent H]. wstep. wstep. wstep. wstep. wstep. wstep.
  apply (wpc_conseq _ _ _ _ (fun r c' => nofault r /\ c' = mk_core (k_d c) (k_p c) (k_o c) true)).
  { wgo; split; (split; discriminate) || reflexivity. }
  intros r c' [F ->]. destruct r as [[]|x| |]; [|sent H|destruct F; congruence|destruct F; congruence].
  wstep. wstep. destruct (process_request_headers _ _ _ _) as [[ok t'] lg]. wgo; sent H; auto.
Qed.
Lemma wpc_state_request_line e c Q : sends c (fun x => x = StProtocol) Q -> wpc SReq e state_request_line c Q.
Proof. intros H. unfold state_request_line. wgo; sent H; reflexivity. Qed.
Lemma wpc_state_request_start e c (Q : res unit -> core -> Prop) :
  (forall r c', nofault r -> restated c c' -> d_state (k_d c') = StLine -> Q r c') -> wpc SReq e state_request_start c Q.
Proof. intros H. unfold state_request_start. wgo; apply H; repeat split; discriminate. Qed.
Lemma wpc_state_response_start e c Q :
  sends c (fun x => x = StLine \/ x = StStreamClose) Q -> wpc SResp e state_response_start c Q.
Proof.
  intros H. unfold state_response_start. wstep. wstep; [|sent H]. wstep.
  apply (wpc_conseq _ _ _ _ (fun r c' => nofault r /\ restated c c' /\ k_h c' = true /\
     (r = ROk tt -> d_state (k_d c') = StLine \/ d_state (k_d c') = StStreamClose))).
  { wgo; repeat split; try discriminate; auto. }
  intros r c' (F & R & Hh & K). destruct r as [[]|x| |]; [|apply H; [exact F|exact R|discriminate]|destruct F; congruence|destruct F; congruence].
  specialize (K eq_refl). destruct c' as [d' p' o' h']. kred. subst h'.
  wgo; (apply H; [split; discriminate|exact R|try discriminate; auto]).
Qed.
Lemma wpc_state_response_headers e c (Q : res unit -> core -> Prop) :
  (forall r, nofault r -> Q r c) -> wpc SResp e state_response_headers c Q.
Proof. intros H. unfold state_response_headers. wgo; apply H; split; discriminate. Qed.
Lemma wpc_check_waiting e c (Q : res unit -> core -> Prop) :
  (forall r, nofault r -> Q r c) -> wpc SResp e request_parser_check_waiting c Q.
Proof. intros H. unfold request_parser_check_waiting. wgo; apply H; split; discriminate. Qed.
Lemma wpc_state_response_complete e c Q : sends c (fun x => x = StIdle) Q -> wpc SResp e state_response_complete c Q.
Proof.
  intros H. unfold state_response_complete. wstep. wstep. wstep. wstep; [|sent H]. wstep.
  apply (wpc_conseq _ _ _ _ (fun r c' => nofault r /\ c' = mk_core (k_d c) (k_p c) (k_o c) true)).
  { wgo; split; (split; discriminate) || reflexivity. }
  intros r c' [F ->]. destruct r as [[]|x| |]; [|sent H|destruct F; congruence|destruct F; congruence].
  wstep. apply wpc_check_waiting. intros r F'. destruct r as [[]|x| |]; [|sent H|destruct F'; congruence|destruct F'; congruence].
  wgo; sent H. reflexivity.
Qed.

(** * The request handlers *)
Lemma slice_cb v p : pd_as_slice (set_pd_cb v p) = pd_as_slice p. Proof. reflexivity. Qed.
Lemma len_cb v p : pd_len (set_pd_cb v p) = pd_len p. Proof. reflexivity. Qed.
Lemma isgap_cb v p : pd_is_gap (set_pd_cb v p) = pd_is_gap p. Proof. reflexivity. Qed.
Lemma empty_cb v p : pd_is_empty (set_pd_cb v p) = pd_is_empty p. Proof. reflexivity. Qed.
Lemma unconsumed_cb v p : pd_unconsumed (set_pd_cb v p) = pd_unconsumed p. Proof. reflexivity. Qed.
Lemma sstate_eqb_eq a b : sstate_eqb a b = true <-> a = b.
Proof. destruct a, b; cbn; split; congruence. Qed.
Lemma pstate_eqb_eq a b : pstate_eqb a b = true <-> a = b.
Proof. destruct a, b; cbn; split; congruence. Qed.

Ltac open_core c := destruct c as [[?stt ?cons ?buf ?hdr ?clen ?lft ?chk ?state ?prev ?rcv] ?p ?o ?h]; kred.
(** Everything about the sizes at the start. *)
Ltac start :=
  match goal with |- forall c, _ => let c := fresh "c" in intro c; open_core c end;
  let OK := fresh in let W := fresh "W" in let C := fresh "Cons" in let B := fresh "Bs" in
  intros [OK [?Cl ?Gp]] ?Hst; destruct OK as (W & C & B); kred; subst;
  let L1 := fresh "Sl" in let L2 := fresh "Pl" in
  match type of W with wfp ?p => pose proof (slice_len p W) as L1; pose proof (pd_len_total p W) as L2; pose proof (avail_le p) end;
  destruct W as [?W1 ?W2]; unfold bufsum in B; kred.
Ltac unres :=
  match goal with
  | R : restated _ ?c' |- _ => destruct R as (?R1 & ?R2 & ?R3); open_core c'; subst; unfold keep_d in R3; kred; injection R3; clear R3; intros; subst
  end.
Ltac simp_in := rewrite ?slice_cb, ?len_cb, ?isgap_cb, ?empty_cb, ?unconsumed_cb in *.
Ltac numb :=
  unfold weight, bufsum, rank, wfp in *; kred; rewrite ?avail_pos, ?total_pos, ?blen_app, ?blen_nil in *; try lia;
  try match goal with |- context [match pd_gap ?p with _ => _ end] => destruct (pd_gap p) eqn:?; first [lia|congruence] end.
Ltac fin :=
  unfold good, ok_core, others, wfp; kred;
  split; [split; discriminate|]; split; [split; [split; [|solve [assumption]]|split]|
  split; [solve [reflexivity|assumption]|split; [solve [reflexivity|assumption]|split; [solve [auto|discriminate|congruence]|split; [solve [assumption|apply hold_refl|split; kred; [auto; discriminate|discriminate]|split; kred; auto; congruence]|]]]]].

Ltac finish := solve [fin; numb; try exact I;
  try (split; [first [left; reflexivity|right; subst; numb]|first [congruence|intros _ _; reflexivity]])].
Ltac byres F := match goal with r : res unit |- _ => destruct r as [[]|?x| |]; try (destruct F; congruence) end.
(** A line of the input. *)
Lemma line_facts p line rest : wfp p -> pd_as_slice p = line ++ rest -> line <> [] ->
  blen line <= avail p /\ 0 < blen line /\ avail p = total p - pd_pos p /\ pd_gap p = None.
Proof.
  intros W E N. pose proof (slice_len p W) as L. rewrite E, blen_app in L.
  assert (0 < blen line) by (destruct line; [congruence|unfold blen; cbn [length]; lia]).
  unfold avail in *. destruct (pd_gap p); [lia|]. repeat split; lia.
Qed.
Lemma take_till_lf_line d rest line : take_till_lf d = POk rest line -> d = line ++ rest /\ line <> [].
Proof.
  intro H. apply (proj1 (take_till_lf_spec d)) in H. destruct H as (-> & l & -> & _). split; [reflexivity|]. now destruct l.
Qed.
Lemma take_till_eol_line d rest line k : take_till_eol d = POk rest (line, k) -> d = line ++ rest /\ line <> [].
Proof.
  intro H. apply take_till_eol_shape in H as (l & -> & -> & Hk & _). split; [reflexivity|]. destruct l, k; cbn; congruence.
Qed.
Ltac line H := let L1 := fresh in let L2 := fresh in
  first [apply take_till_lf_line in H as [L1 L2]|apply take_till_eol_line in H as [L1 L2]];
  match type of L1 with pd_as_slice ?p = ?l ++ ?r =>
    let F := fresh in assert (F : wfp p) by (split; assumption); pose proof (line_facts p l r F L1 L2) as (?La & ?Lb & ?Lc & ?Lg) end.

Section RequestHandlers.
Variable e : env.

Lemma wpc_absent_lf sd c (Q : res unit -> core -> Prop) : ok_core e c ->
  Q (RErr SError) c ->
  (forall c', ok_core e c' -> set_pd_pos 0 (k_p c') = set_pd_pos 0 (k_p c) -> k_o c' = k_o c ->
     d_status (k_d c') = d_status (k_d c) -> Q (RErr SDataBuffer) c') ->
  wpc sd e (absent_lf sd) c Q.
Proof.
  intros (W & C & B) H1 H2. unfold absent_lf. apply wpc_bind, wpc_input. intro cb. simp_in.
  apply wpc_bind, wpc_check_buffer_limit; [|exact H1]. intro L. cbv beta iota.
  apply wpc_bind, wpc_upd; [reflexivity|]. apply wpc_bind, wpc_consume, wpc_fail.
  pose proof (slice_len _ W) as Sl. pose proof (pd_len_total _ W) as Pl. pose proof (avail_le (k_p c)).
  apply H2; kred; try reflexivity. unfold ok_core, bufsum, wfp in *. kred. destruct W as [W1 W2].
  rewrite total_pos. split; [split; [lia|exact W2]|split; [reflexivity|]]. rewrite blen_app. lia.
Qed.

Lemma step_request_idle : forall c, ready e SReq c -> d_state (k_d c) = StIdle -> wpc SReq e request_idle c (good e SReq c).
Proof using.
  start. unfold request_idle.
  do 4 wstep. simp_in. kred. wstep.
  - wgo. finish.
  - wgo. apply wpc_state_request_start. intros r c' F R Hs. unres. byres F; finish.
Qed.
Lemma step_request_ignore : forall c, ready e SReq c -> d_state (k_d c) = StIgnore09 ->
  wpc SReq e request_ignore_data_after_http_0_9 c (good e SReq c).
Proof using. start. unfold request_ignore_data_after_http_0_9. wgo; simp_in; finish. Qed.
Lemma step_request_line : forall c, ready e SReq c -> d_state (k_d c) = StLine -> wpc SReq e request_line c (good e SReq c).
Proof using.
  start. unfold request_line. do 4 wstep. simp_in. kred.
  assert (Gp' : pd_is_gap p = false) by (destruct (pd_is_gap p); [discriminate (Gp eq_refl)|reflexivity]).
  pose proof (avail_nogap _ Gp') as Av.
  assert (K : forall c1 line, ok_core e c1 -> set_pd_pos 0 (k_p c1) = set_pd_pos 0 p -> k_o c1 = o -> d_status (k_d c1) = stt ->
      d_state (k_d c1) = StLine -> d_buf (k_d c1) = [] ->
      (line <> [] -> avail (k_p c1) < avail p + N.min (blen buf) 1) ->
      wpc SReq e (request_line_complete line) c1
        (good e SReq (mk_core (mk_dir stt (pd_pos p) buf hdr clen lft chk StLine prev rcv) p o h))).
  { intros c1 line (W1' & C1 & B1) E1 E2 E3 E4 E5 A. open_core c1. subst. unfold bufsum in B1. kred. unfold request_line_complete.
    destruct (pd_gap p0) eqn:G0; [apply (f_equal pd_gap) in E1; kred; unfold pd_is_gap in Gp'; rewrite <- E1, G0 in Gp'; discriminate|].
    destruct W1' as [Wa Wb].
    destruct (is_nil line) eqn:En.
    - wgo; finish.
    - assert (N : line <> []) by (intros ->; discriminate). specialize (A N).
      wgo; try solve [finish]. apply wpc_state_request_line. intros r c' F R Hs. unres. byres F; try (specialize (Hs eq_refl); subst); finish. }
  destruct (take_till_lf _) as [rest line| |] eqn:E.
  - line E. do 4 wstep. kred. apply K; kred; try reflexivity.
    + unfold ok_core, wfp, bufsum; kred. rewrite total_pos. repeat split; try assumption; numb.
    + intros _. rewrite avail_pos, Lg. lia.
  - apply (proj2 (proj2 (take_till_lf_spec (pd_as_slice p)))) in E. contradiction.
  - destruct (sstate_eqb stt SsClosed) eqn:Es.
    + apply sstate_eqb_eq in Es. subst. destruct (Cl eq_refl) as [G0 T0]. do 4 wstep. kred. simp_in.
      assert (A0 : avail p = 0) by lia. apply K; kred; try reflexivity.
      * unfold ok_core, wfp, bufsum; kred. rewrite total_pos. repeat split; try assumption; numb.
      * rewrite avail_pos, G0, A0. intros Nl.
        assert (0 < blen buf); [|lia]. rewrite A0 in Sl. destruct (pd_as_slice p); [|unfold blen in Sl; cbn [length] in Sl; lia].
        rewrite app_nil_r in Nl. destruct buf; [congruence|unfold blen; cbn [length]; lia].
    + apply wpc_absent_lf; [unfold ok_core, wfp, bufsum; kred; repeat split; assumption || reflexivity| |].
      * finish.
      * intros c' (W' & C' & B') E1 E2 E3. open_core c'. subst. destruct W' as [Wa Wb]. unfold bufsum in B'. kred. finish.
Qed.
End RequestHandlers.
Ltac nogap p := match goal with Gp : pd_is_gap p = true -> _ |- _ =>
  assert (Gp' : pd_is_gap p = false) by (destruct (pd_is_gap p); [discriminate (Gp eq_refl)|reflexivity]);
  pose proof (avail_nogap _ Gp') as Av end.
Ltac absent := apply wpc_absent_lf; [unfold ok_core, wfp, bufsum; kred; repeat split; assumption || reflexivity|finish|];
  let c' := fresh "c'" in let Wx := fresh in let Bx := fresh in
  intros c' (Wx & ?C' & Bx) ?E1 ?E2 ?E3; open_core c'; subst; destruct Wx as [?Wa ?Wb]; unfold bufsum in Bx; kred; finish.

Section RequestHandlers2.
Variable e : env.
Lemma step_request_protocol : forall c, ready e SReq c -> d_state (k_d c) = StProtocol -> wpc SReq e request_protocol c (good e SReq c).
Proof using. start. unfold request_protocol. wgo; finish. Qed.
Lemma step_request_connect_wait : forall c, ready e SReq c -> d_state (k_d c) = StConnectWait ->
  wpc SReq e request_connect_wait_response c (good e SReq c).
Proof using. start. unfold request_connect_wait_response. wgo; finish. Qed.
Lemma step_request_connect_check : forall c, ready e SReq c -> d_state (k_d c) = StConnectCheck ->
  wpc SReq e request_connect_check c (good e SReq c).
Proof using. start. unfold request_connect_check. wgo; finish. Qed.
Lemma step_request_body_determine : forall c, ready e SReq c -> d_state (k_d c) = StBodyDetermine ->
  wpc SReq e request_body_determine c (good e SReq c).
Proof using. start. unfold request_body_determine. wgo; try finish. all: destruct (positive _); finish. Qed.
Lemma step_request_headers : forall c, ready e SReq c -> d_state (k_d c) = StHeaders -> wpc SReq e request_headers c (good e SReq c).
Proof using.
  start. nogap p. unfold request_headers. do 4 wstep. kred. destruct (sstate_eqb stt SsClosed) eqn:Es.
  - wgo; try finish.
    all: apply wpc_state_request_headers; intros r c' F R Hs; unres; byres F; try (destruct (Hs eq_refl); subst); finish.
  - wgo; try finish.
    all: try (apply wpc_state_request_headers; intros r c' F R Hs; unres; byres F; try (destruct (Hs eq_refl); subst); finish).
Qed.
Lemma step_request_connect_probe : forall c, ready e SReq c -> d_state (k_d c) = StConnectProbe ->
  wpc SReq e request_connect_probe_data c (good e SReq c).
Proof using.
  start. nogap p. unfold request_connect_probe_data. wstep. wstep. destruct (take_till_lf_null _) as [rest line| |] eqn:E.
  - wgo; try finish.
    apply wpc_state_request_complete. intros r c' F R Hs. unres. byres F; try (destruct (Hs eq_refl); subst); finish.
  - absent.
  - absent.
Qed.
Lemma step_request_chunked_data_end : forall c, ready e SReq c -> d_state (k_d c) = StChunkedDataEnd ->
  wpc SReq e request_body_chunked_data_end c (good e SReq c).
Proof using.
  start. nogap p. unfold request_body_chunked_data_end. wstep. wstep; [|finish]. wstep. wstep. kred. simp_in. destruct (take_till_lf _) as [rest line| |] eqn:E.
  - line E. wgo; finish.
  - wstep. wstep; kred; [|finish]. absent.
  - wstep. wstep; kred; [|finish]. absent.
Qed.
Lemma step_body_chunked_data sd : forall c, ready e sd c -> d_state (k_d c) = StChunkedData ->
  wpc sd e (body_chunked_data sd) c (good e sd c).
Proof using.
  destruct sd.
  all: start; nogap p; unfold body_chunked_data; do 4 wstep; kred; simp_in; cbv zeta; wstep; [wgo; finish|].
  all: wstep; apply wpc_slice_to; [kred; lia|]; cbv beta iota; wgo; try finish.
Qed.
Lemma step_request_body_identity : forall c, ready e SReq c -> d_state (k_d c) = StIdentity ->
  wpc SReq e request_body_identity c (good e SReq c).
Proof using.
  start. unfold request_body_identity. do 2 wstep; kred. destruct lft as [lft|]; [|wgo; finish].
  wstep. wstep. kred. simp_in. cbv zeta. wstep; [wgo; finish|]. wstep.
  destruct (pd_is_gap p) eqn:G.
  - assert (exists g, pd_gap p = Some g) as [g Eg] by (unfold pd_is_gap in G; destruct (pd_gap p); [eauto|discriminate]).
    wgo; try finish.
  - pose proof (avail_nogap _ G) as Av. wstep. apply wpc_slice_to; [kred; lia|]. cbv beta iota. wgo; try finish.
Qed.
Lemma skipn_plus {A} a b (l : list A) : skipn (a + b) l = skipn a (skipn b l).
Proof using.
  revert l. induction b as [|b IH]; intro l; [now rewrite Nat.add_0_r|]. rewrite Nat.add_succ_r.
  destruct l; [now rewrite !skipn_nil|]. cbn [skipn]. apply IH.
Qed.
Lemma slice_consume p line rest : wfp p -> pd_as_slice p = line ++ rest ->
  pd_as_slice (set_pd_pos (pd_pos p + blen line) p) = rest.
Proof using.
  intros [W G]. unfold pd_as_slice, pd_unconsumed. kred. destruct (pd_data p) as [d|] eqn:Ed.
  - unfold total in W. rewrite Ed in W. destruct (pd_gap p); [discriminate (G ltac:(discriminate))|].
    destruct (pd_pos p <=? blen d) eqn:E; [|lia]. intro H.
    assert (L : blen (skipn (N.to_nat (pd_pos p)) d) = blen line + blen rest) by (rewrite H; apply blen_app).
    rewrite blen_skipn in L. destruct (pd_pos p + blen line <=? blen d) eqn:E2; [|lia].
    replace (N.to_nat (pd_pos p + blen line)) with (length line + N.to_nat (pd_pos p))%nat by (unfold blen; lia).
    rewrite skipn_plus, H, skipn_app, Nat.sub_diag, skipn_all. reflexivity.
  - intro H. symmetry in H. now apply app_eq_nil in H as [-> ->].
Qed.
Lemma step_request_chunked_length : forall c, ready e SReq c -> d_state (k_d c) = StChunkedLength ->
  wpc SReq e request_body_chunked_length c (good e SReq c).
Proof using.
  start. nogap p. unfold request_body_chunked_length. wstep. wstep. kred.
  set (c0 := mk_core _ p o h).
  assert (K : forall n x h', (length (pd_as_slice (set_pd_pos x p)) < n)%nat -> pd_pos p <= x -> x <= total p ->
    wpc SReq e (request_chunked_length_loop n (pd_as_slice (set_pd_pos x p)))
      (mk_core (mk_dir stt x buf hdr clen lft chk StChunkedLength prev rcv) (set_pd_pos x p) o h') (good e SReq c0)).
  { subst c0. induction n as [|n IH]; intros x h' Hn Hx1 Hx2; [lia|]. cbn [request_chunked_length_loop].
    assert (Wx : wfp (set_pd_pos x p)) by (split; assumption).
    pose proof (slice_len _ Wx) as Slx. pose proof (avail_nogap (set_pd_pos x p) Gp') as Avx. kred. rewrite total_pos in Avx.
    destruct (take_till_lf _) as [rest line| |] eqn:E.
    - apply take_till_lf_line in E as [E Nl]. pose proof (line_facts _ _ _ Wx E Nl) as (La & Lb & Lc & Lg).
      pose proof (slice_consume _ _ _ Wx E) as Sc. kred. change (set_pd_pos ?a (set_pd_pos x p)) with (set_pd_pos a p) in Sc.
      assert (IHx : forall h', wpc SReq e (request_chunked_length_loop n rest)
         (mk_core (mk_dir stt (x + blen line) buf hdr clen lft chk StChunkedLength prev rcv) (set_pd_pos (x + blen line) p) o h')
         (good e SReq (mk_core (mk_dir stt (pd_pos p) buf hdr clen lft chk StChunkedLength prev rcv) p o h))).
      { intro h2. rewrite <- Sc. apply IH; [|lia|lia]. rewrite Sc. apply (f_equal (@length N)) in E. rewrite app_length in E.
        unfold blen in Lb. lia. }
      wstep. wstep. kred. wgo; try finish. apply IHx.
    - apply (proj2 (proj2 (take_till_lf_spec (pd_as_slice (set_pd_pos x p))))) in E. contradiction.
    - destruct (is_valid_chunked_length_data _); [|wgo; finish].
      apply wpc_absent_lf; [unfold ok_core, wfp, bufsum; kred; repeat split; assumption || reflexivity|finish|].
      intros c' (Wc & C' & Bx) E1 E2 E3. open_core c'. subst. destruct Wc as [Wa Wb]. unfold bufsum in Bx. kred. finish. }
  specialize (K (S (length (pd_as_slice p))) (pd_pos p) h).
  replace (set_pd_pos (pd_pos p) p) with p in K by (destruct p; reflexivity). apply K; lia.
Qed.
Lemma step_request_finalize : forall c, ready e SReq c -> d_state (k_d c) = StFinalize ->
  wpc SReq e request_finalize c (good e SReq c).
Proof using.
  start. unfold request_finalize. do 4 wstep. kred. simp_in.
  assert (Fin : forall c1, ok_core e c1 -> set_pd_pos 0 (k_p c1) = set_pd_pos 0 p -> k_o c1 = o -> d_status (k_d c1) = stt ->
    d_state (k_d c1) = StFinalize -> avail (k_p c1) + N.min (blen (d_buf (k_d c1))) 1 <= avail p + 2 * blen buf ->
    wpc SReq e state_request_complete c1 (good e SReq (mk_core (mk_dir stt (pd_pos p) buf hdr clen lft chk StFinalize prev rcv) p o h))).
  { intros c1 (W1' & C1 & B1) E1 E2 E3 E4 A. open_core c1. subst. unfold bufsum in B1. kred. destruct W1' as [Wa Wb].
    apply wpc_state_request_complete. intros r c' F R Hs. unres. byres F; try (destruct (Hs eq_refl); subst); finish. }
  assert (Work : forall work x, pd_gap p = None -> blen work <= x <= total p -> total p - x + blen work <= avail p ->
     x <= pd_pos p + blen work ->
     wpc SReq e (request_finalize_work work)
        (mk_core (mk_dir stt x buf hdr clen lft chk StFinalize prev rcv) (set_pd_pos x p) o h)
        (good e SReq (mk_core (mk_dir stt (pd_pos p) buf hdr clen lft chk StFinalize prev rcv) p o h))).
  { intros work x G Hx Ha Hp. unfold request_finalize_work, request_finalize_line.
    assert (Av : avail p = total p - pd_pos p) by (unfold avail; now rewrite G).
    assert (Avx : forall y, avail (set_pd_pos y p) = total p - y) by (intro y; rewrite avail_pos, G; reflexivity).
    wstep. wstep; [kred|finish]. wstep. wstep. kred. destruct (is_nil (buf ++ work)) eqn:En.
    - apply Fin; try reflexivity; unfold ok_core, wfp, bufsum; kred; rewrite ?total_pos; repeat split; try assumption; try lia; numb.
    - rewrite is_nil_blen, blen_app in En. cbv zeta. wgo; try finish.
      apply Fin; try reflexivity; unfold ok_core, wfp, bufsum; kred; rewrite ?total_pos.
      + rewrite firstn_app, Nat.sub_diag, firstn_all. cbn [firstn]. rewrite app_nil_r. cbn [app].
        destruct (_ <? _) eqn:El; repeat split; try assumption; try lia; numb.
      + rewrite firstn_app, Nat.sub_diag, firstn_all. cbn [firstn]. rewrite app_nil_r. cbn [app].
        change (set_pd_pos ?a (set_pd_pos x p)) with (set_pd_pos a p). rewrite Avx, blen_app.
        destruct (_ <? _) eqn:El; lia. }
  destruct (pd_is_gap p) eqn:G.
  - apply Fin; try reflexivity; unfold ok_core, wfp, bufsum; kred; repeat split; try assumption; numb.
  - assert (G0 : pd_gap p = None) by (unfold pd_is_gap in G; destruct (pd_gap p); [discriminate|reflexivity]).
    pose proof (avail_nogap _ G) as Av.
    destruct (sstate_eqb stt SsClosed) eqn:Es.
    + apply sstate_eqb_eq in Es. destruct (Cl Es) as [_ T0].
      specialize (Work (pd_as_slice p) (pd_pos p)). replace (set_pd_pos (pd_pos p) p) with p in Work by (destruct p; reflexivity).
      apply Work; lia || assumption.
    + destruct (is_nil (pd_as_slice p)) eqn:En.
      * apply Fin; try reflexivity; unfold ok_core, wfp, bufsum; kred; repeat split; try assumption; numb.
      * destruct (take_till_lf _) as [rest line| |] eqn:E.
        -- line E. wstep. wstep. kred. apply Work; lia || assumption.
        -- absent.
        -- absent.
Qed.

Theorem step_request : forall c, ready e SReq c -> wpc SReq e handle_request_state c (good e SReq c).
Proof using.
  intros c Rd. unfold handle_request_state. apply wpc_bind, wpc_get_d. intro v. cbn [d_state set_d_recv].
  destruct (d_state (k_d c)) eqn:E.
  all: first [ now apply step_request_idle | now apply step_request_ignore | now apply step_request_line
    | now apply step_request_protocol | now apply step_request_headers | now apply step_request_connect_wait
    | now apply step_request_connect_check | now apply step_request_connect_probe | now apply step_request_body_determine
    | now apply step_body_chunked_data | now apply step_request_chunked_length | now apply step_request_chunked_data_end
    | now apply step_request_body_identity | now apply step_request_finalize | idtac ].
  all: apply wpc_fail; destruct Rd as ((W & C & B) & _); repeat split; try discriminate; try apply W; auto.
Qed.
End RequestHandlers2.

