(** C79: how any request target is split into the components of a URI. Each part below relates a text to a component at its beginning
    and the text that is left. *)
From Verif Require Import Base Spec ModelUri.

(** A part may be missing; then nothing is passed over. *)
Inductive maybe {A} (part : A -> bytes -> Prop) (t : bytes) : option A -> bytes -> Prop :=
  | mb_some a r : part a r -> maybe part t (Some a) r
  | mb_none : (forall a r, ~ part a r) -> maybe part t None t.
(** The longest beginning without the given bytes, if it is not empty. *)
Definition until (stop : string) (t a r : bytes) : Prop := max_run (fun b => ~ In b (s2b stop)) t a r /\ a <> [].

(** Up to the first colon, unless the target begins with a slash. *)
Definition scheme_part (t s r : bytes) : Prop := t = s ++ s2b ":" ++ r /\ ~ In 58 s /\ not_starting 47 t.
(** Between two slashes (not three) and the first @: user and, behind the first colon, password. *)
Definition user_part (t : bytes) (up : bytes * option bytes) (r : bytes) : Prop :=
  exists a, t = s2b "//" ++ a ++ s2b "@" ++ r /\ ~ In 64 a /\ not_starting 47 a /\
    (~ In 58 a /\ up = (a, None) \/ exists w, a = fst up ++ s2b ":" ++ w /\ ~ In 58 (fst up) /\ snd up = Some w).
(** Behind two slashes, if they are there, no further slash and any spaces: a text in brackets, the closing one of which may be missing,
    or else everything up to a slash, question mark, hash or colon; without the spaces at its end. *)
Inductive host_text (t : bytes) : bytes -> bytes -> Prop :=
  | ht_closed a u r : t = s2b "[" ++ u -> until "/?#]" u a (s2b "]" ++ r) -> host_text t (s2b "[" ++ a ++ s2b "]") r
  | ht_open a u r : t = s2b "[" ++ u -> until "/?#]" u a r -> not_starting 93 r -> host_text t (s2b "[" ++ a) r
  | ht_plain h r : until "/?#:" t h r -> (forall a u r', t = s2b "[" ++ u -> ~ until "/?#]" u a r') -> host_text t h r.
Definition host_part (t h r : bytes) : Prop :=
  exists t1 sp t2 sp', (t = s2b "//" ++ t1 \/ t1 = t /\ forall x, t <> s2b "//" ++ x) /\ not_starting 47 t1 /\ max_run (eq 32) t1 sp t2 /\
    host_text t2 (h ++ sp') r /\ Forall (eq 32) sp' /\ forall h', h <> h' ++ [32].
(** Behind a colon and any spaces: everything up to a slash, question mark or hash, of which the first space and what follows is dropped. *)
Definition port_part (t p r : bytes) : Prop :=
  exists u sp v q dropped, t = s2b ":" ++ u /\ max_run (eq 32) u sp v /\ until "/?#" v q r /\ max_run (fun b => b <> 32) q p dropped.
Definition path_part (t p r : bytes) : Prop := until "#?" t p r.
Definition query_part (t q r : bytes) : Prop := exists u, t = s2b "?" ++ u /\ until "#" u q r.
Definition fragment_part (t f r : bytes) : Prop := t = s2b "#" ++ f /\ r = [].

(** The authority: user, host and port; there is no port without a host. *)
Inductive authority (t : bytes) : option (bytes * option bytes) -> option bytes -> option bytes -> bytes -> Prop :=
  | au_host up h p r1 r2 r : maybe (user_part t) t up r1 -> host_part r1 h r2 -> maybe (port_part r2) r2 p r -> authority t up (Some h) p r
  | au_none up r : maybe (user_part t) t up r -> (forall h r', ~ host_part r h r') -> authority t up None None r.
(** The whole target. There is no authority without a scheme. *)
Definition splits (t : bytes) (u : uri) : Prop :=
  exists up r r1 r2 r3,
    (maybe (scheme_part t) t None r /\ u_scheme u = None /\ up = None /\ u_hostname u = None /\ u_port u = None \/
     exists s r0, scheme_part t s r0 /\ u_scheme u = Some s /\ authority r0 up (u_hostname u) (u_port u) r) /\
    u_username u = option_map fst up /\ u_password u = match up with Some (_, p) => p | None => None end /\
    maybe (path_part r) r (u_path u) r1 /\ maybe (query_part r1) r1 (u_query u) r2 /\ maybe (fragment_part r2) r2 (u_fragment u) r3 /\
    u_port_number u = None.
