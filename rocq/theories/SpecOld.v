(** Vocabulary of the property statements about HTTP/0.9: a request that is one line, and a response that is nothing but its body. *)
From Verif Require Import Base Spec SpecTx ModelState ModelTx ModelConn SpecMsg SpecResp SpecConnect.

(** A request line without a protocol, in segments. *)
Record simple := mk_simple { sq_method : bytes; sq_target : bytes; sq_end : bytes; sq_up : list bytes }.
Definition simple_text (q : simple) : bytes := sq_method q ++ [32] ++ sq_target q ++ sq_end q.
Definition good_simple (q : simple) : Prop :=
  In (sq_method q) known_methods /\ sq_method q <> s2b "CONNECT" /\ sq_target q <> [] /\ Forall (fun c => 33 <= c <= 126) (sq_target q) /\
  (sq_end q = [10] \/ sq_end q = [13; 10]) /\ concat (sq_up q) = simple_text q /\ ~ In [] (sq_up q).
(** What follows it, from either side, in segments. *)
Definition segment_op (x : side * bytes) : op := match x with (SReq, c) => OpReq (pd_slice c) | (SResp, c) => OpResp (pd_slice c) end.
Definition mixed (later : list (side * bytes)) : Prop := Forall (fun x => snd x <> []) later.
Fixpoint replies (later : list (side * bytes)) : list bytes :=
  match later with [] => [] | (SResp, c) :: r => c :: replies r | (SReq, _) :: r => replies r end.
Definition simple_ops (q : simple) (later : list (side * bytes)) : list op := reqs (sq_up q) ++ map segment_op later.
(** What the callbacks are told of the request, and of the response: each segment is a piece of its body. *)
Definition simple_events (cfg : config) (i : N) (q : simple) (es : list event) : Prop :=
  exists ps, reported cfg (sq_target q) ps /\
    es = [mk_ev HRequestStart i PlNone] ++ map (fun nv => mk_ev HParam i (PlParam (fst nv) (snd nv))) ps ++
         [mk_ev HRequestUriNormalize i PlNone; mk_ev HRequestLine i PlNone; mk_ev HRequestComplete i PlNone].
Definition raw_events (i : N) (cs : list bytes) : list event :=
  match cs with [] => [] | _ => [mk_ev HResponseStart i PlNone] ++ flat_map (fun c => reply_piece i (PlData c)) cs end.
(** What the transaction holds. *)
Record simply_asked (q : simple) (t : tx) : Prop := {
  sa_method : x_method t = Some (sq_method q);
  sa_number : x_methodn t = MKnown (sq_method q);
  sa_target : x_uri t = Some (sq_target q);
  sa_uri : exists u, x_raw t = Some u /\ located (sq_target q) u;
  sa_old : x_is09 t = true;
  sa_protocol : t_proto (x_req t) = None /\ t_proton (x_req t) = ProtoV0_9;
  sa_headers : t_headers (x_req t) = [];
  sa_entity : t_elen (x_req t) = 0; sa_message : t_mlen (x_req t) = 0;
  sa_progress : t_prog (x_req t) = PComplete }.
Record simply_answered (cs : list bytes) (pr : progress) (t : tx) : Prop := {
  sn_status : x_status t = None; sn_number : x_statusn t = RnUnknown; sn_reason : x_msg t = None;
  sn_headers : t_headers (x_resp t) = [];
  sn_entity : t_elen (x_resp t) = blen (concat cs); sn_message : t_mlen (x_resp t) = blen (concat cs);
  sn_progress : t_prog (x_resp t) = pr }.
Definition raw_progress (cs : list bytes) : progress := match cs with [] => PNotStarted | _ => PBody end.
(** The configured limits allow it after the conversation. *)
Definition simple_fits (e : env) (before : list round) (q : simple) (later : list (side * bytes)) : Prop :=
  talk_fits e before /\ blen (simple_text q) <= c_field_limit (e_cfg e) /\ blen (concat (replies later)) < 2 ^ 64 /\
  N.of_nat (length (exchanges before)) + 1 < 2 ^ 64 /\
  (if c_auto_destroy (e_cfg e) then 1 <= c_max_tx (e_cfg e) else N.of_nat (length (exchanges before)) + 1 <= c_max_tx (e_cfg e)).
