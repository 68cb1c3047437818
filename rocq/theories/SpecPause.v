(** Vocabulary of the property statements about a connection that is closed between rounds. *)
From Verif Require Import Base Spec SpecTx ModelUtil ModelState ModelTx ModelConn SpecConn SpecMsg SpecResp SpecIdle.

(** Closing the connection, and the calls that bring nothing. *)
Inductive pausing_op : op -> Prop :=
| pausing_idle o : idle o -> pausing_op o
| pausing_close : pausing_op OpClose.
(** Rounds of requests and responses, each followed by such calls. *)
Definition pause_ops (x : round * list op) : list op := round_ops (fst x) ++ snd x.
Definition pause_conversation (rs : list (round * list op)) : list op := OpOpen :: concat (map pause_ops rs).
