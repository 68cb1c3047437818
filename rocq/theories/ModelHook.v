(** Callback lists (src/hook.rs) and the log channel (src/log.rs, src/connection.rs). *)
From Verif Require Export ModelState.

(** src/hook.rs:150-156, [Callback]. A native callback returns a Result, an external one a status. The callbacks may read
    and change any state [S] (the connection, the transaction, what the caller captured). *)
Inductive answer := AnsOk | AnsErr (x : status).
Inductive callback (S : Type) := External (f : S -> status * S) | Native (f : S -> answer * S).
Arguments External {S}. Arguments Native {S}.
(** src/hook.rs:45-62: the empty hook, [register] and [register_extern]. *)
Definition hook_new {S} : list (callback S) := [].
Definition register {S} (f : S -> answer * S) (h : list (callback S)) : list (callback S) := h ++ [Native f].
Definition register_extern {S} (f : S -> status * S) (h : list (callback S)) : list (callback S) := h ++ [External f].
(** src/hook.rs:100-119 (DataHook) and 127-146 (LogHook); the loop of 70-92 (TxHook). *)
Fixpoint run_all {S} (h : list (callback S)) (s : S) : answer * S :=
  match h with
  | [] => (AnsOk, s)
  | External f :: r =>
      let '(x, s') := f s in
      match x with
      | SOk | SDeclined => run_all r s'
      | _ => (AnsErr x, s')
      end
  | Native f :: r =>
      let '(a, s') := f s in
      match a with
      | AnsOk => run_all r s'
      | AnsErr SDeclined => run_all r s'
      | AnsErr x => (AnsErr x, s')
      end
  end.
(** src/hook.rs:70-92: nothing runs when the transaction is gone. *)
Definition run_all_tx {S} (tx_exists : bool) (h : list (callback S)) (s : S) : answer * S :=
  if tx_exists then run_all h s else (AnsOk, s).

(** * The log channel: an unbounded queue. [None] inside the result list stands for an empty channel. *)
Inductive logop := LogMsg (level : N) (code : string) (* src/log.rs:206-218 *)
                 | GetLogs                            (* src/connection.rs:113-119 *)
                 | GetNextLog.                        (* src/connection.rs:122-128 *)
(** State: the messages in the channel, oldest first. Result: the messages the operation hands out. *)
Definition log_op (limit : N) (o : logop) (q : list logmsg) : list logmsg * list logmsg :=
  match o with
  | LogMsg lv c => ([], if lv <=? limit then q ++ [mk_log lv c] else q)
  | GetLogs => (q, [])
  | GetNextLog => match q with [] => ([], []) | m :: r => ([m], r) end
  end.
Fixpoint log_ops (limit : N) (l : list logop) (q : list logmsg) : list (list logmsg) * list logmsg :=
  match l with
  | [] => ([], q)
  | o :: r => let '(out, q') := log_op limit o q in let '(outs, q'') := log_ops limit r q' in (out :: outs, q'')
  end.
