(** Running the model on states given by their fields, with callbacks that all answer OK. *)
From Verif Require Import Base ModelState ModelTx ModelConn SpecConn ProofsBase ProofsConn ProofsCore ProofsHist.

(** * The primitives *)
Ltac ev := cbv beta iota zeta delta
  [bind ret fail panic get ask modify when try ignore upd_d get_d set_state set_status input slice s_dir set_s_dir s_idx by_side
   set_input consume unconsume pd_consume pd_is_gap is_some fst snd
   s_req set_s_req s_resp set_s_resp s_other_at_end set_s_other_at_end s_chunk_count set_s_chunk_count s_chunk_idx
   set_s_chunk_idx s_ridx set_s_ridx s_pidx set_s_pidx s_txs set_s_txs s_cflags set_s_cflags s_in set_s_in s_out set_s_out
   s_trace set_s_trace s_logs set_s_logs s_input set_s_input
   d_status set_d_status d_consumed set_d_consumed d_buf set_d_buf d_header set_d_header d_clen set_d_clen d_left set_d_left
   d_chunk set_d_chunk d_state set_d_state d_prev set_d_prev d_recv set_d_recv
   pd_data set_pd_data pd_gap set_pd_gap pd_pos set_pd_pos pd_cb set_pd_cb sstate_eqb pstate_eqb negb andb orb is_nil opt_len opt_payload].
(** Callbacks that answer OK. *)
Definition yes (e : env) : Prop := forall s ev, e_cb e s ev = SOk.
Lemma yes_mute e : yes (mute e). Proof. intros s ev. reflexivity. Qed.
Definition push (h : hook) (i : N) (d : payload) (s : st) : st := set_s_trace ((mk_ev h i d, SOk) :: s_trace s) s.
Lemma data_hook_yes e h i d s : yes e -> data_hook h i d e s = (ROk tt, push h i d s).
Proof. intro Y. unfold data_hook, bind, call. rewrite Y. reflexivity. Qed.
Lemma tx_hook_yes e h i s t : yes e -> tx_get i (s_txs s) = Some t -> tx_hook h i e s = (ROk tt, push h i PlNone s).
Proof. intros Y H. unfold tx_hook, bind, get, call. rewrite H, Y. reflexivity. Qed.
Lemma tx_set_set i t u l : tx_set i t (tx_set i u l) = tx_set i t l.
Proof.
  induction l as [|[j v] l IH]; [reflexivity|]. cbn [tx_set]. destruct (i =? j) eqn:E; cbn [tx_set]; rewrite E; [reflexivity|]. now rewrite IH.
Qed.
Lemma tx_set_same i t l : tx_get i l = Some t -> tx_set i t l = l.
Proof.
  induction l as [|[j v] l IH]; [reflexivity|]. cbn [tx_get tx_set]. destruct (i =? j); [now intros [= ->]|]. intro H. now rewrite IH.
Qed.
Lemma tx_get_set_eq i t l u : tx_get i l = Some u -> tx_get i (tx_set i t l) = Some t.
Proof. intro H. apply tx_get_set. congruence. Qed.
Lemma the_tx_get sd e s t : tx_get (s_idx sd s) (s_txs s) = Some t -> the_tx sd e s = (ROk t, s).
Proof. intro H. unfold the_tx, bind, cur_tx. rewrite H. reflexivity. Qed.
Lemma need_tx_get sd e s t : tx_get (s_idx sd s) (s_txs s) = Some t -> need_tx sd e s = (ROk t, s).
Proof. intro H. unfold need_tx, bind, cur_tx. rewrite H. reflexivity. Qed.
Lemma mod_tx_get sd f e s t : tx_get (s_idx sd s) (s_txs s) = Some t ->
  mod_tx sd f e s = (ROk tt, set_s_txs (tx_set (s_idx sd s) (f t) (s_txs s)) s).
Proof. intro H. unfold mod_tx, bind, get, put_tx, modify. rewrite (the_tx_get _ _ _ _ H). reflexivity. Qed.

(** What is left of a chunk. *)
Lemma pd_slice_at c k cb : k <= blen c -> pd_as_slice (mk_pdata (Some c) None k cb) = skipn (N.to_nat k) c.
Proof. intro H. unfold pd_as_slice, pd_unconsumed. cbn [pd_data pd_pos]. destruct (k <=? blen c) eqn:E; [reflexivity|lia]. Qed.
Lemma pd_len_at c k cb : k <= blen c -> pd_len (mk_pdata (Some c) None k cb) = blen c - k.
Proof. intro H. unfold pd_len. cbn [pd_gap]. rewrite pd_slice_at by exact H. unfold blen in *. rewrite skipn_length. lia. Qed.

(** * Body data without decompression *)
Definition grow (sd : side) (n : N) (t : tx) : tx :=
  upd_dir sd (fun d => set_t_elen (wadd (t_elen d) n) (set_t_mlen (wadd (t_mlen d) n) d)) t.
Lemma grow_dir sd n t : x_dir sd (grow sd n t) = set_t_elen (wadd (t_elen (x_dir sd t)) n) (set_t_mlen (wadd (t_mlen (x_dir sd t)) n) (x_dir sd t)).
Proof. destruct sd; reflexivity. Qed.
(** The two body callbacks for one piece. *)
Definition body_hooks (sd : side) (i : N) (d : payload) (s : st) : st :=
  match sd with
  | SReq => push HRequestBody i d (push HRequestBodyTx i d s)
  | SResp => push HResponseBody i d (push HResponseBodyTx i d s)
  end.
Lemma body_data_plain sd e s t d : yes e -> tx_get (s_idx sd s) (s_txs s) = Some t -> t_cep (x_dir sd t) = CeNone ->
  body_data sd d e s =
  let s1 := set_s_txs (tx_set (s_idx sd s) (grow sd (opt_len d) t) (s_txs s)) s in
  (ROk tt, match sd, d with
           | SReq, Some [] => s1
           | SResp, (None | Some []) => s1
           | _, _ => body_hooks sd (s_idx sd s) (opt_payload d) s1
           end).
Proof.
  intros Y H C. unfold body_data. unfold bind at 1. rewrite (need_tx_get _ _ _ _ H). unfold bind at 1, add_mlen, mod_txd.
  rewrite (mod_tx_get _ _ _ _ _ H). set (s1 := set_s_txs _ s). set (t1 := upd_dir sd _ t) in s1.
  assert (I1 : s_idx sd s1 = s_idx sd s) by (destruct sd; reflexivity).
  assert (H1 : tx_get (s_idx sd s1) (s_txs s1) = Some t1) by (rewrite I1; apply (tx_get_set_eq _ _ _ _ H)).
  unfold bind at 1. rewrite (the_tx_get _ _ _ _ H1). replace (t_cep (x_dir sd t1)) with CeNone by (destruct sd; exact (eq_sym C)).
  unfold bind at 1, add_elen, mod_txd. rewrite (mod_tx_get _ _ _ _ _ H1).
  replace (set_s_txs (tx_set (s_idx sd s1) (upd_dir sd (fun d0 => set_t_elen (wadd (t_elen d0) (opt_len d)) d0) t1) (s_txs s1)) s1)
    with (set_s_txs (tx_set (s_idx sd s) (grow sd (opt_len d) t) (s_txs s)) s).
  2:{ rewrite I1. unfold s1. cbn [s_txs set_s_txs]. rewrite tx_set_set. destruct sd; reflexivity. }
  set (s2 := set_s_txs _ s).
  assert (I2 : s_idx sd s2 = s_idx sd s) by (destruct sd; reflexivity).
  assert (H2 : tx_get (s_idx sd s2) (s_txs s2) = Some (grow sd (opt_len d) t)) by (rewrite I2; apply (tx_get_set_eq _ _ _ _ H)).
  clearbody s2. clear s1 t1 I1 H1. cbv zeta.
  assert (R : forall p, run_hook_body_data sd p e s2 =
    (ROk tt, if match sd, p with SReq, PlData b => is_nil b | SReq, _ => false | SResp, _ => payload_len p =? 0 end then s2 else body_hooks sd (s_idx sd s) p s2)).
  { intro p. unfold run_hook_body_data. rewrite <- I2. destruct sd; cbn [by_side].
    - unfold bind at 2. unfold bind at 1. rewrite (the_tx_get _ _ _ _ H2). unfold ret at 1.
      destruct (match p with PlData b => is_nil b | _ => false end); [reflexivity|]. unfold bind at 1. rewrite (the_tx_get _ _ _ _ H2).
      unfold bind at 1, get at 1. unfold bind at 1. rewrite !data_hook_yes by exact Y. reflexivity.
    - unfold bind at 1, ret at 1. destruct (payload_len p =? 0); [reflexivity|]. unfold bind at 1. rewrite (the_tx_get _ _ _ _ H2).
      unfold bind at 1, get at 1. unfold bind at 1. rewrite !data_hook_yes by exact Y. reflexivity. }
  destruct sd.
  - unfold bind at 1, try. rewrite R. destruct d as [[|c b]|]; reflexivity.
  - rewrite R. destruct d as [[|c b]|]; reflexivity.
Qed.
