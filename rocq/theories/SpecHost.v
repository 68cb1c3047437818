(** Vocabulary of C60 and C61: where the host of a request comes from, and what an Authorization header says. *)
From Verif Require Import Base Spec.
From Verif Require Import ModelUri ModelState.

(** * C60 *)
(** The target of the request names the host [h], with or without a port. *)
Definition target_host (t : tx) (h : bytes) (p : option N) : Prop :=
  exists u, x_parsed t = Some u /\ u_hostname u = Some h /\ u_port_number u = p.
Definition target_without_host (t : tx) : Prop :=
  forall u, x_parsed t = Some u -> u_hostname u = None /\ u_port_number u = None.
(** Nothing was said about the host before. *)
Definition undecided (t : tx) : Prop := x_host t = None /\ x_port t = None.
(** A text that no port number has: C09. *)
Definition port_text (d : bytes) (n : N) : Prop :=
  exists ds, (d = ds \/ d = 43 :: ds) /\ ds <> [] /\ Forall digit ds /\ dec_value ds = n /\ 1 <= n <= 65535.
Definition bad_port (d : bytes) : Prop := d <> [] /\ no_bytes (s2b "/?# ") d /\ forall n, ~ port_text d n.
(** What is neither nothing nor a port: a path, query or fragment, a colon alone, or a colon followed by one of these. *)
Definition no_port (r : bytes) : Prop :=
  (exists x y, r = x :: y /\ In x (s2b "/?#")) \/ r = s2b ":" \/ exists x y, r = 58 :: x :: y /\ In x (s2b "/?#").

(** * C61 *)
(** The value names the scheme [k], in letters of any case, and goes on with white space and [rest]. *)
Definition says_scheme (k : string) (v : bytes) : Prop := exists w r, v = w ++ r /\ name_eq w (s2b k).
Definition says_credentials (k : string) (v rest : bytes) : Prop :=
  exists w ws, v = w ++ ws ++ rest /\ name_eq w (s2b k) /\ Forall ascii_space ws /\ forall x r, rest = x :: r -> ~ ascii_space x.
(** The four fields about credentials. *)
Definition identity (t : tx) : authtype * option bytes * option bytes * option bytes := (x_auth t, x_user t, x_pass t, x_token t).
