(** Vocabulary of the property statements about which callbacks run for which transaction. *)
From Verif Require Import Base ModelState ModelTx ModelConn SpecConn.

(** The runs of a completion hook for transaction [i]. *)
Definition runs_of (h : hook) (i : N) (s : st) : list event :=
  filter (fun ev => match ev_hook ev, h with
                    | HTransactionComplete, HTransactionComplete | HResponseComplete, HResponseComplete | HRequestComplete, HRequestComplete => ev_tx ev =? i
                    | _, _ => false
                    end) (events s).

(** The message a callback reports about: line, URI and parameters, headers, body, trailer and end of a request or response. The
    raw header data callbacks, which also run at the end of a segment, are left out. *)
Definition about (h : hook) : option side :=
  match h with
  | HRequestLine | HRequestUriNormalize | HParam | HRequestHeaders | HRequestBodyTx | HRequestBody | HRequestTrailer | HRequestComplete => Some SReq
  | HResponseLine | HResponseHeaders | HResponseBodyTx | HResponseBody | HResponseTrailer | HResponseComplete => Some SResp
  | _ => None
  end.
Definition start_of (sd : side) : hook := match sd with SReq => HRequestStart | SResp => HResponseStart end.
(** Every such callback runs for the transaction that was started last: before it the start callback of its side ran for the same
    transaction, and not again in between. *)
Definition announced (sd : side) (es : list event) : Prop :=
  forall before ev after, es = before ++ ev :: after -> about (ev_hook ev) = Some sd ->
  exists a start b, before = a ++ start :: b /\ ev_hook start = start_of sd /\ ev_tx start = ev_tx ev /\
    Forall (fun x => ev_hook x <> start_of sd) b.
(** The log message of a response for which there is no request. *)
Definition unmatched : logmsg := mk_log LvError "UNABLE_TO_MATCH_RESPONSE_TO_REQUEST".
(** A request with an Expect header. *)
Definition expecting (t : tx) : Prop := headers_get_nocase (t_headers (x_req t)) (s2b "expect") <> None.
