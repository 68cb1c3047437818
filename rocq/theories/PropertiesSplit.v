(** Property C79 of properties.jsonl: how any request target is split. Vocabulary: SpecSplit.v; [port_text], what a port number looks
    like: SpecHost.v; [max_run]: Spec.v. *)
From Verif Require Import Base ModelUtil ModelParsers ModelUri Spec SpecHost SpecSplit ProofsSplit.

(** * C79 *)
(** Whatever bytes a target has, it is split in exactly one way, the one described. *)
Theorem C79_target_split : forall t u, splits t u <-> parse_uri uri_default t = u.
Proof. exact target_split. Qed.
Print Assumptions C79_target_split.
(** The target of CONNECT is a host and maybe a port; the host is reported in lower case. It is flagged exactly if the host is not valid,
    the port not a number, or there is something else behind the host. *)
Theorem C79_connect : forall ip6 v fl u fl', parse_uri_hostport ip6 uri_default v fl = (u, fl') ->
  (exists h r p r', host_part v h r /\ maybe (port_part r) r p r' /\
     u_hostname u = Some (lowers h) /\ u_port u = p /\ (forall n, u_port_number u = Some n <-> exists d, p = Some d /\ port_text d n) /\
     u_scheme u = None /\ u_username u = None /\ u_password u = None /\ u_path u = None /\ u_query u = None /\ u_fragment u = None /\
     (fl' = fl /\ validate_hostname ip6 h = true /\ match p with Some d => exists n, port_text d n | None => r = [] end \/
      fl' = fset fl HOSTU_INVALID /\ ~ (validate_hostname ip6 h = true /\ match p with Some d => exists n, port_text d n | None => r = [] end))) \/
  (forall h r, ~ host_part v h r) /\ u = uri_default /\ fl' = fl.
Proof. exact connect_split. Qed.
Print Assumptions C79_connect.
(** An empty port puts the colon into the path; what follows a space in a port is in no component; a target that begins with a host and
    a port has the host for its scheme. *)
Theorem C79_port_refuted :
  (u_port (parse_uri uri_default (s2b "http://h:/p")) = None /\ u_path (parse_uri uri_default (s2b "http://h:/p")) = Some (s2b ":/p")) /\
  (u_port (parse_uri uri_default (s2b "http://h:80 x/p")) = Some (s2b "80") /\ u_path (parse_uri uri_default (s2b "http://h:80 x/p")) = Some (s2b "/p")) /\
  (u_scheme (parse_uri uri_default (s2b "h.com:80/p")) = Some (s2b "h.com") /\ u_hostname (parse_uri uri_default (s2b "h.com:80/p")) = Some (s2b "80")).
Proof. exact port_oddities. Qed.
Print Assumptions C79_port_refuted.

Example C79_ex : exists u, splits (s2b "http://u:p:q@ [::1 :80?#") u /\
  u_username u = Some (s2b "u") /\ u_password u = Some (s2b "p:q") /\ u_hostname u = Some (s2b "[::1 :80") /\ u_port u = None /\
  u_path u = None /\ u_query u = None /\ u_fragment u = None.
Proof. eexists. split; [apply C79_target_split; reflexivity|]. vm_compute. repeat split; reflexivity. Qed.
Example C79_connect_ex : exists u, parse_uri_hostport (fun _ => None) uri_default (s2b "Ex.com: 44300 ") 0 = (u, 0) /\
  u_hostname u = Some (s2b "ex.com") /\ u_port_number u = Some 44300.
Proof. eexists. split; [reflexivity|]. split; reflexivity. Qed.
