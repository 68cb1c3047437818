(** Vocabulary of C74 and C75: how a request line and a status line are read. *)
From Verif Require Import Base Spec SpecTx ModelUtil ModelParsers ModelUrl ModelState ModelTx.

(** * Request lines *)
(** What stands behind the method, without the white space around it: the target and the protocol, separated by the first space, or by the
    last one if targets may contain spaces; if there is no space, by other white space; if there is none either, there is no protocol. *)
Inductive target_and_protocol (spaces : bool) (rest : bytes) : bytes -> bytes -> Prop :=
| tp_alone : Forall (fun c => ~ c_space c) rest -> target_and_protocol spaces rest rest []
| tp_both (sep : N -> Prop) a x b t p :
    (In 32 rest /\ sep = eq 32) \/ (~ In 32 rest /\ sep = c_space) ->
    rest = a ++ x :: b -> sep x -> Forall (fun c => ~ sep c) (if spaces then b else a) ->
    trims_to c_space a t -> trims_to c_space b p -> target_and_protocol spaces rest t p.
(** What is read of a request line. *)
Record request_words := mk_words {
  w_leading : bytes; (* white space before the method *)
  w_method : bytes;
  w_gap : bytes; (* white space behind the method *)
  w_rest : bytes; (* everything behind it, without the white space around *)
  w_target : option bytes;
  w_protocol : option bytes
}.
Definition nothing (b : bytes) : bool := match b with [] => true | _ => false end.
Definition reads_request (c : config) (line : bytes) (w : request_words) : Prop :=
  exists data r1 m r2 rest,
    (** Apache stops at a NUL *)
    match c_pers c with APACHE_2 => exists after, max_run (fun b => b <> 0) line data after | _ => data = line end /\
    max_run c_space data (w_leading w) r1 /\ max_run (fun b => ~ c_space b) r1 m r2 /\ max_run c_space r2 (w_gap w) rest /\ trims_to c_space rest (w_rest w) /\
    (** white space before the method is part of it if it is unwanted *)
    w_method w = (if is_ignore (c_ws_unwanted c) then m else w_leading w ++ m) /\
    ((rest = [] /\ w_target w = None /\ w_protocol w = None) \/
     exists t p, rest <> [] /\ target_and_protocol (allow_space_uri (c_dcfg c)) (w_rest w) t p /\
       w_target w = Some t /\ w_protocol w = (if nothing p then None else Some p)).
(** The version a protocol text names. *)
Definition names_version (p : bytes) (v : protocol) : Prop :=
  match v with
  | ProtoV0_9 => protocol_text p (s2b ".9")
  | ProtoV1_0 => protocol_text p (s2b "1.0")
  | ProtoV1_1 => protocol_text p (s2b "1.1")
  | ProtoInvalid => forall v, In v [s2b ".9"; s2b "1.0"; s2b "1.1"] -> ~ protocol_text p v
  | _ => False
  end.
Definition names_method (m : bytes) (n : hmethod) : Prop :=
  (In m known_methods /\ n = MKnown m) \/ (~ In m known_methods /\ n = MUnknown).
(** What the transaction says of a line read as [w]. *)
Record tells_request (c : config) (w : request_words) (t : tx) : Prop := {
  tr_method : x_method t = Some (w_method w);
  tr_number : names_method (w_method w) (x_methodn t);
  tr_target : forall u, w_target w = Some u -> x_uri t = Some u;
  tr_protocol : forall p, w_protocol w = Some p -> t_proto (x_req t) = Some p /\ names_version p (t_proton (x_req t));
  tr_simple : w_protocol w = None -> x_is09 t = true /\ t_proton (x_req t) = ProtoV0_9
}.

(** A protocol with something around its slash. *)
Definition padded (p : bytes) : Prop :=
  exists w1 h w2 z v w3, p = w1 ++ h ++ w2 ++ [47] ++ z ++ v ++ w3 /\ Forall ascii_space w1 /\ name_eq h (s2b "HTTP") /\ Forall ascii_space w2 /\
    Forall (fun c => ascii_space c \/ c = 48) z /\ Forall ascii_space w3 /\ In v [s2b ".9"; s2b "1.0"; s2b "1.1"] /\ (w2 <> [] \/ z <> []).
(** What is logged about it, each a warning. *)
Inductive warned (w : request_words) : string -> Prop :=
| wa_leading : w_leading w <> [] -> warned w "REQUEST_LINE_LEADING_WHITESPACE"
| wa_gap c : In c (w_gap w) -> c <> 32 -> warned w "METHOD_DELIM_NON_COMPLIANT"
| wa_delim c : In c (w_rest w) -> c_space c -> ~ In 32 (w_rest w) -> warned w "URI_DELIM_NON_COMPLIANT"
| wa_padded p : w_protocol w = Some p -> padded p -> warned w "PROTOCOL_CONTAINS_EXTRA_DATA"
| wa_unknown : ~ In (w_method w) known_methods -> w_target w = None -> warned w "REQUEST_LINE_UNKNOWN_METHOD"
| wa_simple t : ~ In (w_method w) known_methods -> w_target w = Some t -> w_protocol w = None -> warned w "REQUEST_LINE_UNKNOWN_METHOD_NO_PROTOCOL"
| wa_invalid p : ~ In (w_method w) known_methods -> w_protocol w = Some p -> names_version p ProtoInvalid -> warned w "REQUEST_LINE_UNKNOWN_METHOD_INVALID_PROTOCOL".

(** * Status lines *)
Record status_words := mk_swords { v_protocol : option bytes; v_status : option bytes; v_message : option bytes }.
Definition reads_status (line : bytes) (w : status_words) : Prop :=
  exists leading r1 p r2 blank r3 code r4 blank' m m',
    max_run (fun b => c_space b \/ b = 0) line leading r1 /\ max_run (fun b => ~ c_space b) r1 p r2 /\ max_run c_space r2 blank r3 /\
    max_run (fun b => ~ c_space b) r3 code r4 /\ max_run ascii_space r4 blank' m /\
    (** the message without the end of the line *)
    (exists eol, m = m' ++ eol /\ Forall (fun b => b = 10 \/ b = 13) eol /\ forall a x, m' = a ++ [x] -> x <> 10 /\ x <> 13) /\
    v_protocol w = (if nothing p then None else Some p) /\
    v_status w = (if nothing code then None else Some code) /\
    v_message w = (if nothing code || nothing blank' then None else Some m').
Definition names_status (s : bytes) (n : respnum) : Prop :=
  (exists k, n = RnValid k /\ 100 <= k <= 999 /\ Forall digit s /\ s <> [] /\ dec_value s = k) \/
  (n = RnInvalid /\ ~ (Forall digit s /\ s <> [] /\ 100 <= dec_value s <= 999)).
Record tells_status (w : status_words) (t : tx) : Prop := {
  ts_protocol : t_proto (x_resp t) = v_protocol w;
  ts_version : match v_protocol w with Some p => names_version p (t_proton (x_resp t)) | None => t_proton (x_resp t) = ProtoInvalid end;
  ts_status : x_status t = v_status w;
  ts_number : match v_status w with Some s => names_status s (x_statusn t) | None => x_statusn t = RnInvalid end;
  ts_message : x_msg t = v_message w
}.
(** What is logged about it. *)
Inductive status_warned (w : status_words) : string -> Prop :=
| sw_padded p : v_protocol w = Some p -> padded p -> status_warned w "PROTOCOL_CONTAINS_EXTRA_DATA"
| sw_none : v_protocol w = None -> status_warned w "RESPONSE_LINE_INVALID_PROTOCOL"
| sw_protocol p : v_protocol w = Some p -> names_version p ProtoInvalid -> status_warned w "RESPONSE_LINE_INVALID_PROTOCOL"
| sw_missing : v_status w = None -> status_warned w "RESPONSE_LINE_INVALID_RESPONSE_STATUS"
| sw_status s : v_status w = Some s -> names_status s RnInvalid -> status_warned w "RESPONSE_LINE_INVALID_RESPONSE_STATUS".
