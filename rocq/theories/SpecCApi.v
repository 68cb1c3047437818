(** Vocabulary of C73: the C interface. *)
From Verif Require Import Base ModelBstr ModelState ModelTx ModelConn ModelCApi.
From Coq Require Import ZArith.

(** The memory behind a [char *] holds the text [k] and a NUL behind it. *)
Definition holds_text (mem k : bytes) : Prop := ~ In 0 k /\ exists rest, mem = k ++ 0 :: rest.
(** A number, if there is one, as a signed 64-bit result: -1 if there is none or it does not fit. *)
Definition tells (n : option N) (z : Z) : Prop :=
  (exists k, n = Some k /\ k < 2 ^ 63 /\ z = Z.of_N k) \/ (z = (-1)%Z /\ forall k, n = Some k -> 2 ^ 63 <= k).
(** [l] is [b] with every NUL written as a backslash and a zero. *)
Inductive escapes : bytes -> bytes -> Prop :=
| esc_nil : escapes [] []
| esc_nul b l : escapes b l -> escapes (0 :: b) (92 :: 48 :: l)
| esc_byte x b l : x <> 0 -> escapes b l -> escapes (x :: b) (x :: l).
(** Asking [n] times for the next log message. *)
Fixpoint ask_logs (n : nat) (s : st) : list (option logmsg) * st :=
  match n with
  | O => ([], s)
  | S n => let '(m, s) := htp_conn_next_log s in let '(l, s) := ask_logs n s in (m :: l, s)
  end.
(** At least [len] bytes can be read. *)
Definition readable (c : c_op) : Prop := match c with CData _ (Some mem) len => len <= blen mem | _ => True end.
(** The length named in the last data call of one side; closing hands over nothing. *)
Definition handed1 (sd : side) (n : N) (c : c_op) : N :=
  match c with
  | CData SReq _ len => match sd with SReq => len | SResp => n end
  | CData SResp _ len => match sd with SResp => len | SReq => n end
  | CReqClose => match sd with SReq => 0 | SResp => n end
  | CClose => 0
  | _ => n
  end.
Definition handed (sd : side) (l : list c_op) : N := fold_left (handed1 sd) l 0.
(** The call names no transaction to destroy. *)
Definition keeps_all (c : c_op) : Prop := match c with CDestroy _ => False | _ => True end.
