(** Vocabulary of C50 (second part) and C70: two runs of the same history side by side. *)
From Verif Require Import Base ModelState ModelTx ModelConn.

(** * C50: the log level *)
Definition with_level (L : N) (e : env) : env := mk_env (set_c_log_level L (e_cfg e)) (e_cb e) (e_codec e) (e_ip6 e) (e_b64 e).
Definition up_to (L : N) (l : list logmsg) : list logmsg := filter (fun m => lg_level m <=? L) l.
(** Callbacks and codecs do not look into the log. *)
Definition log_blind (e : env) : Prop :=
  (forall s l ev, e_cb e (set_s_logs l s) ev = e_cb e s ev) /\ (forall s l dc d, e_codec e (set_s_logs l s) dc d = e_codec e s dc d).

(** * C50: the answers *)
Definition with_callbacks (cb : st -> event -> status) (e : env) : env := mk_env (e_cfg e) cb (e_codec e) (e_ip6 e) (e_b64 e).
(** All there is to see but the answers the callbacks gave so far. *)
Definition unanswered (s : st) : st := set_s_trace (map (fun x => (fst x, SOk)) (s_trace s)) s.
(** OK and DECLINED count as the same answer, save for the parameter processor. *)
Definition same_answer (ev : event) (x y : status) : Prop :=
  x = y \/ (ev_hook ev <> HParam /\ (x = SOk \/ x = SDeclined) /\ (y = SOk \/ y = SDeclined)).

(** * C70 *)
Definition with_flush (b : bool) (e : env) : env := mk_env (set_c_flush b (e_cfg e)) (e_cb e) (e_codec e) (e_ip6 e) (e_b64 e).
(** The transaction has begun and one of its messages is not complete. *)
Definition unfinished (s : st) (i : N) : Prop := exists t, tx_get i (s_txs s) = Some t /\
  (t_prog (x_req t) <> PNotStarted \/ t_prog (x_resp t) <> PNotStarted) /\ (t_prog (x_req t) <> PComplete \/ t_prog (x_resp t) <> PComplete).
