(** Vocabulary of the property statements about a connection that is closed while responses are awaited. *)
From Verif Require Import Base Spec SpecTx ModelUtil ModelState ModelTx ModelConn SpecConn SpecMsg SpecResp SpecIdle SpecPause.

(** Between requests and their responses: calls that bring nothing, and closing if that does not flush. *)
Inductive waiting_op (e : env) : op -> Prop :=
| waiting_idle o : idle o -> waiting_op e o
| waiting_close : c_flush (e_cfg e) = false -> waiting_op e OpClose.
(** Rounds with the calls made before their responses, and those made after them. *)
Definition wait_ops (x : round * (list op * list op)) : list op := idle_ops (fst x, fst (snd x)) ++ snd (snd x).
Definition wait_conversation (rs : list (round * (list op * list op))) : list op := OpOpen :: concat (map wait_ops rs).
Definition may_wait (e : env) (x : round * (list op * list op)) : Prop := Forall (waiting_op e) (fst (snd x)) /\ Forall pausing_op (snd (snd x)).
