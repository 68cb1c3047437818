From Verif Require Import Base ModelState ModelTx ModelConn SpecConn ProofsBase ProofsConn ProofsCore ProofsHist ProofsEval.

(** One direction at an identity body with [n] bytes to come. *)
Lemma loop_fuel_S3 sd s : exists k, loop_fuel sd s = S (S (S k)).
Proof. unfold loop_fuel. match goal with |- context [(16 * (?a + 2))%nat] => exists (16 * a + 29)%nat; lia end. Qed.
(** The table after the current transaction of a side has been looked up. *)
Definition looked (e : env) (i : N) (l l' : list (N * tx)) : Prop :=
  l' = l \/ (tx_get i l = None /\ N.of_nat (length l) < c_max_tx (e_cfg e) /\ l' = tx_put i tx_new l).
Lemma looked_other e i l l' j : looked e i l l' -> j <> i -> tx_get j l' = tx_get j l.
Proof. intros [-> | (_ & _ & ->)] H; [reflexivity|]. now apply tx_get_put_other. Qed.
Lemma looked_some e i l l' j t : looked e i l l' -> tx_get j l = Some t -> tx_get j l' = Some t.
Proof. intros [-> | (Hi & _ & ->)] H; [exact H|]. rewrite tx_get_put_other; congruence. Qed.
Lemma looked_length e i l l' : looked e i l l' -> (length l' <= S (length l))%nat.
Proof. intros [-> | (_ & _ & ->)]; [lia|]. apply length_put. Qed.
Lemma cur_tx_eval sd e s : exists o l, cur_tx sd e s = (ROk o, set_s_txs l s) /\ looked e (s_idx sd s) (s_txs s) l /\
  (N.of_nat (length (s_txs s)) < c_max_tx (e_cfg e) -> tx_get (s_idx sd s) (s_txs s) = None -> tx_get (s_idx sd s) l = Some tx_new).
Proof.
  unfold cur_tx, looked. destruct (tx_get (s_idx sd s) (s_txs s)) as [t|] eqn:E.
  - exists (Some t), (s_txs s). split; [destruct s; reflexivity|]. split; [now left|discriminate].
  - destruct (_ <=? _) eqn:L.
    + exists None, (s_txs s). split; [destruct s; reflexivity|]. split; [now left|]. intros; lia.
    + eexists _, _. split; [reflexivity|]. split; [right; split; [reflexivity|]; split; [lia|reflexivity]|]. intros _ _. apply tx_get_put.
Qed.
Definition pausing (x : status) : Prop := x = SData \/ x = SDataBuffer.
Lemma after_step_data sd x e s : pausing x -> d_recv (s_dir sd s) = None -> exists p l,
  after_step sd (inr x) e s = (ROk (Some SsData), set_s_dir sd (set_d_status SsData (s_dir sd s)) (set_s_txs l (set_s_input p s))) /\
  looked e (s_idx sd s) (s_txs s) l /\
  (N.of_nat (length (s_txs s)) < c_max_tx (e_cfg e) -> tx_get (s_idx sd s) (s_txs s) = None -> tx_get (s_idx sd s) l = Some tx_new).
Proof.
  intros X R. replace (after_step sd (inr x)) with (after_step sd (inr SData)) by (destruct X as [-> | ->]; reflexivity). clear X.
  unfold after_step. unfold bind at 1, ignore at 1, receiver_send_data. unfold bind at 1, input at 1.
  destruct (pd_callback_data (s_input s)) as [d p] eqn:Ep. unfold bind at 1, modify at 1.
  unfold bind at 1, need_tx. unfold bind at 1. destruct (cur_tx_eval sd e (set_s_input p s)) as (o & l & -> & H1 & H2).
  exists p, l. split; [|split; [destruct sd; exact H1|destruct sd; exact H2]].
  destruct o as [t|]; [|destruct sd; reflexivity]. unfold ret at 1, bind at 1, get at 1.
  match goal with |- context [d_recv ?x] => replace (d_recv x) with (@None hook) by (destruct sd; exact (eq_sym R)) end. destruct sd; reflexivity.
Qed.
Lemma after_step_recv sd x e s t h a k cb : yes e -> pausing x -> d_recv (s_dir sd s) = Some h -> tx_get (s_idx sd s) (s_txs s) = Some t ->
  s_input s = mk_pdata (Some a) None k cb -> k <= blen a -> cb <= k ->
  after_step sd (inr x) e s = (ROk (Some SsData), set_s_dir sd (set_d_status SsData (s_dir sd s))
    (set_s_trace ((mk_ev h (s_idx sd s) (PlData (firstn (N.to_nat (k - cb)) (skipn (N.to_nat cb) a))), SOk) :: s_trace s) (set_s_input (mk_pdata (Some a) None k k) s))).
Proof.
  intros Y X R T I L1 L2. replace (after_step sd (inr x)) with (after_step sd (inr SData)) by (destruct X as [-> | ->]; reflexivity). clear X.
  unfold after_step. unfold bind at 1, ignore at 1, receiver_send_data. unfold bind at 1, input at 1. rewrite I. unfold pd_callback_data. cbn [pd_data pd_pos pd_cb].
  destruct (k <=? blen a) eqn:E1; [|lia]. destruct (cb <=? k) eqn:E2; [|lia]. cbn [andb]. unfold bind at 1, modify at 1. unfold bind at 1.
  rewrite (need_tx_get sd _ _ t) by (destruct sd; exact T). unfold bind at 1, get at 1.
  match goal with |- context [d_recv ?z] => replace (d_recv z) with (Some h) by (destruct sd; exact (eq_sym R)) end. rewrite (data_hook_yes e _ _ _ _ Y). unfold push. destruct sd, s; reflexivity.
Qed.
(** What a request leaves alone while it is read. *)
Definition outside (s : st) := (s_pidx s, s_resp s, s_other_at_end s).
Lemma length_set i t l : length (tx_set i t l) = length l.
Proof. induction l as [|[j u] l IH]; cbn [tx_set length]; [reflexivity|]. destruct (i =? j); cbn [length]; congruence. Qed.
(** [c] is what is left of the chunk [a]. *)
Definition rest_of (a c : bytes) (k cb : N) (s : st) : Prop := s_input s = mk_pdata (Some a) None k cb /\ k <= blen a /\ skipn (N.to_nat k) a = c.
Lemma rest_len a c k cb s : rest_of a c k cb s -> k + blen c = blen a.
Proof. intros (_ & H & <-). unfold blen in *. rewrite skipn_length. lia. Qed.
Lemma rest_pd_len a c k cb s : rest_of a c k cb s -> pd_len (s_input s) = blen c.
Proof. intro H. pose proof (rest_len _ _ _ _ _ H) as L. destruct H as (-> & H & _). rewrite pd_len_at by exact H. lia. Qed.
Lemma slice_to_front a c tail k cb e s : rest_of a (c ++ tail) k cb s -> slice_to (blen c) e s = (ROk c, s).
Proof.
  intros (H & L & R). unfold slice_to, bind, slice. rewrite H, pd_slice_at, R by lia.
  destruct (blen c <=? blen (c ++ tail)) eqn:E; [|unfold blen in E; rewrite app_length in E; lia].
  unfold ret, blen. rewrite Nat2N.id, firstn_app, Nat.sub_diag, firstn_all. cbn [firstn]. rewrite app_nil_r. reflexivity.
Qed.
(** The state after [c] has been delivered as body. *)
Definition ate (sd : side) (k : N) (c : bytes) (m : N) (t : tx) (s : st) : st :=
  let s1 := set_s_txs (tx_set (s_idx sd s) (grow sd (blen c) t) (s_txs s)) s in
  let s2 := body_hooks sd (s_idx sd s) (PlData c) s1 in
  let s3 := set_s_input (set_pd_pos (k + blen c) (s_input s)) s2 in
  set_s_dir sd (set_d_left (Some m) (set_d_consumed (k + blen c) (s_dir sd s))) s3.
Lemma identity_more e s t n a c k cb : yes e -> tx_get (s_ridx s) (s_txs s) = Some t -> t_cep (x_req t) = CeNone ->
  d_state (s_req s) = StIdentity -> d_left (s_req s) = Some n -> rest_of a c k cb s -> 0 < blen c < n ->
  handle_request_state e s = (RErr SData, ate SReq k c (n - blen c) t s).
Proof.
  intros Y B C D1 D3 I L. unfold handle_request_state. unfold bind at 1, get_d at 1. cbn [s_dir]. rewrite D1.
  unfold request_body_identity. unfold bind at 1, get_d at 1. cbn [s_dir]. rewrite D3. unfold bind at 1, input at 1.
  rewrite (rest_pd_len _ _ _ _ _ I). replace (N.min (blen c) n) with (blen c) by lia. destruct (blen c =? 0) eqn:E0; [lia|].
  unfold bind at 1. replace (pd_is_gap (s_input s)) with false by (destruct I as [-> _]; reflexivity). unfold bind at 1.
  rewrite (slice_to_front a c [] k cb) by (rewrite app_nil_r; exact I).
  rewrite (body_data_plain SReq e s t (Some c) Y) by assumption.
  cbv zeta. destruct c as [|x c]; [cbn in L; lia|]. set (c0 := x :: c) in *. cbv iota beta.
  unfold ate. destruct s as [rq rs oe cc ci ri pi txs cf si so tr lg inp]. destruct rq as [d1 d2 d3 d4 d5 d6 d7 d8 d9 d10]. destruct I as (I & _ & _). cbn in I, D1, D3, B. subst.
  unfold body_hooks, push. ev. destruct (0 <? n - blen c0) eqn:E1; [|lia]. reflexivity.
Qed.
Lemma identity_last e s t a c tail k cb : yes e -> tx_get (s_ridx s) (s_txs s) = Some t -> t_cep (x_req t) = CeNone ->
  d_state (s_req s) = StIdentity -> d_left (s_req s) = Some (blen c) -> rest_of a (c ++ tail) k cb s -> 0 < blen c ->
  handle_request_state e s =
    (ROk tt, let s1 := ate SReq k c 0 t s in
             let s2 := set_s_req (set_d_state StFinalize (s_req s1)) s1 in
             body_hooks SReq (s_ridx s) PlNone (set_s_txs (tx_set (s_ridx s) (grow SReq 0 (grow SReq (blen c) t)) (s_txs s)) s2)).
Proof.
  intros Y B C D1 D3 I L. unfold handle_request_state. unfold bind at 1, get_d at 1. cbn [s_dir]. rewrite D1.
  unfold request_body_identity. unfold bind at 1, get_d at 1. cbn [s_dir]. rewrite D3. unfold bind at 1, input at 1.
  rewrite (rest_pd_len _ _ _ _ _ I). replace (N.min (blen (c ++ tail)) (blen c)) with (blen c) by (unfold blen; rewrite app_length; lia). destruct (blen c =? 0) eqn:E0; [lia|].
  unfold bind at 1. replace (pd_is_gap (s_input s)) with false by (destruct I as [-> _]; reflexivity). unfold bind at 1.
  rewrite (slice_to_front a c tail k cb) by exact I.
  rewrite (body_data_plain SReq e s t (Some c) Y) by assumption.
  cbv zeta. destruct c as [|x c]; [cbn in L; lia|]. set (c0 := x :: c) in *. cbv iota beta.
  unfold ate. destruct s as [rq rs oe cc ci ri pi txs cf si so tr lg inp]. destruct rq as [d1 d2 d3 d4 d5 d6 d7 d8 d9 d10]. destruct I as (I & _ & _). cbn in I, D1, D3, B. subst.
  unfold body_hooks, push. ev. replace (blen c0 - blen c0) with 0 by lia. change (0 <? 0) with false. ev.
  match goal with |- body_data SReq None e ?z = _ => rewrite (body_data_plain SReq e z (grow SReq (blen c0) t) None Y) end.
  - unfold body_hooks, push. ev. rewrite tx_set_set. reflexivity.
  - cbn. apply (tx_get_set_eq _ _ _ _ B).
  - exact C.
Qed.
(** The state after a request of transaction [t] has been completed. *)
Definition completed (auto : bool) (t : tx) (s : st) : st :=
  let i := s_ridx s in
  let t2 := upd_dir SReq (set_t_prog PComplete) (if request_has_body t then grow SReq 0 t else t) in
  let s1 := if request_has_body t then body_hooks SReq i PlNone s else s in
  let s2 := push HRequestComplete i PlNone s1 in
  let s3 := if is_complete t2 then push HTransactionComplete i PlNone s2 else s2 in
  let s4 := set_s_req (set_d_state (if x_is09 t then StIgnore09 else StIdle) (s_req s)) s3 in
  let s5 := if s_pidx s <? i then set_s_cflags (N.lor (s_cflags s) 1) s4 else s4 in
  set_s_ridx (wadd i 1) (set_s_txs (if auto && is_complete t2 then tx_del i (tx_set i t2 (s_txs s)) else tx_set i t2 (s_txs s)) s5).
Lemma request_complete_eval e s t : yes e -> tx_get (s_ridx s) (s_txs s) = Some t -> t_cep (x_req t) = CeNone ->
  prog_eqb (t_prog (x_req t)) PComplete = false -> d_recv (s_req s) = None ->
  state_request_complete e s = (ROk tt, completed (c_auto_destroy (e_cfg e)) t s).
Proof.
  intros Y H C P R. unfold state_request_complete. unfold bind at 1. rewrite (need_tx_get SReq _ _ _ H). rewrite P. cbn [negb when].
  unfold completed. set (t1 := if request_has_body t then grow SReq 0 t else t). set (s1 := if request_has_body t then body_hooks SReq (s_ridx s) PlNone s else s).
  assert (Q : when (request_has_body t) (body_data SReq None) e s = (ROk tt, set_s_txs (tx_set (s_ridx s) t1 (s_txs s)) s1)).
  { unfold t1, s1. destruct (request_has_body t); cbn [when].
    - rewrite (body_data_plain SReq e s t None Y) by assumption. destruct s. reflexivity.
    - rewrite tx_set_same by assumption. destruct s. reflexivity. }
  unfold bind at 1. unfold bind at 1. rewrite Q.
  assert (T : x_is09 (upd_dir SReq (set_t_prog PComplete) t1) = x_is09 t) by (unfold t1; destruct (request_has_body t); reflexivity).
  assert (F : s_ridx s1 = s_ridx s /\ s_pidx s1 = s_pidx s /\ s_txs s1 = s_txs s /\ s_req s1 = s_req s /\ s_cflags s1 = s_cflags s) by (unfold s1; destruct (request_has_body t), s; repeat split; reflexivity).
  clearbody t1 s1. clear Q. destruct F as (F1 & F2 & F3 & F4 & F5). rewrite <- F1, <- F2, <- F3, <- F4, <- F5.
  rewrite <- F1, <- F3 in H. rewrite <- F4 in R.
  unfold bind at 1, set_progress, mod_txd. rewrite (mod_tx_get SReq _ _ _ t1) by apply (tx_get_set_eq _ _ _ _ H).
  cbn [s_idx s_txs set_s_txs s_ridx]. change (s_ridx (set_s_txs (tx_set (s_ridx s1) t1 (s_txs s1)) s1)) with (s_ridx s1). rewrite tx_set_set.
  set (t2 := upd_dir SReq _ t1) in *.
  unfold bind at 1. unfold bind at 1, get at 1. 
  rewrite (tx_hook_yes e _ _ _ t2 Y) by apply (tx_get_set_eq _ _ _ _ H).
  unfold receiver_finalize_clear. unfold bind at 1, get_d at 1. cbn [s_dir].
  destruct s1 as [rq rs oe cc ci ri pi txs cf si so tr lg inp]. cbn [s_req s_ridx s_txs s_pidx] in *.
  assert (H2 : tx_get ri (tx_set ri t2 txs) = Some t2) by apply (tx_get_set_eq _ _ _ _ H).
  destruct rq as [d1 d2 d3 d4 d5 d6 d7 d8 d9 d10]. cbn [d_recv] in R. subst d10.
  unfold push. ev. rewrite (the_tx_get SReq _ _ t2) by exact H2. ev. rewrite T.
  unfold finalize. ev. rewrite H2. destruct (is_complete t2) eqn:Ec.
  - rewrite (tx_hook_yes e _ _ _ t2 Y) by exact H2. unfold request_next, check_free, push. ev.
    destruct (pi <? ri); ev; rewrite H2, Ec; destruct (c_auto_destroy (e_cfg e)); reflexivity.
  - unfold request_next, check_free, push. ev.
    destruct (pi <? ri); ev; rewrite H2, Ec; destruct (c_auto_destroy (e_cfg e)); reflexivity.
Qed.
Lemma step_next sd e s s1 : pd_is_gap (s_input s) = false -> handle_state sd e s = (ROk tt, s1) ->
  d_status (s_dir sd s1) <> SsTunnel -> d_state (s_dir sd s1) <> StHeaders ->
  step sd e s = (ROk None, set_s_dir sd (set_d_prev (d_state (s_dir sd s1)) (s_dir sd s1)) s1).
Proof.
  intros G H T N1. unfold step. unfold bind at 1, input at 1. unfold bind at 1, get_d at 1. rewrite G. cbn [andb].
  unfold bind at 1, try at 1. rewrite H. unfold bind at 1, get_d at 1.
  replace (sstate_eqb (d_status (s_dir sd s1)) SsTunnel) with false by (destruct (d_status (s_dir sd s1)); congruence || reflexivity).
  unfold bind at 1, try at 1, handle_state_change. unfold bind at 1, get_d at 1.
  destruct (pstate_eqb (d_prev (s_dir sd s1)) (d_state (s_dir sd s1))) eqn:E.
  - assert (Eq : d_prev (s_dir sd s1) = d_state (s_dir sd s1)) by (destruct (d_prev _), (d_state _); try discriminate; reflexivity).
    cbn. f_equal. rewrite <- Eq. destruct s1, sd; cbn; [destruct s_req|destruct s_resp]; reflexivity.
  - replace (pstate_eqb (d_state (s_dir sd s1)) StHeaders) with false by (destruct (d_state (s_dir sd s1)); congruence || reflexivity).
    reflexivity.
Qed.
Lemma step_err sd e s s1 x : pd_is_gap (s_input s) = false -> handle_state sd e s = (RErr x, s1) -> step sd e s = after_step sd (inr x) e s1.
Proof.
  intros G H. unfold step. unfold bind at 1, input at 1. unfold bind at 1, get_d at 1. rewrite G. cbn [andb].
  unfold bind at 1, try at 1. rewrite H. reflexivity.
Qed.
(** The beginning of a call with bytes. *)
Definition opened (sd : side) (c : bytes) (s : st) : st :=
  let s1 := count_data sd (blen c) (offer sd (pd_slice c) s) in
  match sd with
  | SReq => if sstate_eqb (d_status (s_resp s)) SsDataOther then set_s_resp (set_d_status SsData (s_resp s)) s1 else s1
  | SResp => s1
  end.
Lemma data_call_bytes sd c e s : 0 < blen c -> (d_status (s_dir sd s) = SsData \/ d_status (s_dir sd s) = SsOpen \/ d_status (s_dir sd s) = SsDataOther) ->
  data_call sd (pd_slice c) e s = data_loop sd (loop_fuel sd (opened sd c s)) e (opened sd c s).
Proof.
  intros L St. rewrite data_call_eval. assert (Lc : pd_len (pd_slice c) = blen c) by (unfold pd_slice; rewrite pd_len_at by lia; lia).
  unfold pd_is_empty. rewrite Lc. destruct (blen c =? 0) eqn:E; [lia|]. cbn [andb].
  replace (match d_status (s_dir sd s) with SsStop => _ | SsError => _ | _ => _ end) with (data_tail sd (pd_slice c) e (count_data sd (blen c) (offer sd (pd_slice c) s)))
    by (destruct St as [-> | [-> | ->]]; reflexivity).
  unfold data_tail, opened. cbn [pd_is_gap pd_slice pd_gap is_some]. destruct sd; cbn [by_side].
  - unfold bind at 1. unfold bind at 1, get_d at 1. cbn [s_dir]. change (d_status (s_resp (count_data SReq (blen c) (offer SReq (pd_slice c) s)))) with (d_status (s_resp s)).
    destruct (sstate_eqb (d_status (s_resp s)) SsDataOther); reflexivity.
  - reflexivity.
Qed.
Definition piece (i : N) (d : payload) : list (event * status) := [(mk_ev HRequestBody i d, SOk); (mk_ev HRequestBodyTx i d, SOk)].
Lemma opened_same sd c s : s_trace (opened sd c s) = s_trace s /\ s_txs (opened sd c s) = s_txs s /\ s_pidx (opened sd c s) = s_pidx s /\
  s_ridx (opened sd c s) = s_ridx s /\ s_input (opened sd c s) = pd_slice c /\ s_cflags (opened sd c s) = s_cflags s.
Proof. unfold opened. destruct sd; [destruct (sstate_eqb _ _)|]; repeat split; reflexivity. Qed.
Lemma loop_last sd n e s x s' : step sd e s = (ROk (Some x), s') -> data_loop sd (S n) e s = (ROk x, s').
Proof. intro H. cbn [data_loop]. unfold bind. rewrite H. reflexivity. Qed.
Lemma loop_next sd n e s s' : step sd e s = (ROk None, s') -> data_loop sd (S n) e s = data_loop sd n e s'.
Proof. intro H. cbn [data_loop]. unfold bind. rewrite H. reflexivity. Qed.
Lemma ok_status d : (d_status d = SsData \/ d_status d = SsOpen \/ d_status d = SsDataOther) -> d_status d <> SsTunnel.
Proof. intros [-> | [-> | ->]]; discriminate. Qed.
