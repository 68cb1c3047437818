(** Vocabulary of the property statements about calls that bring nothing. *)
From Verif Require Import Base Spec SpecTx ModelUtil ModelState ModelTx ModelConn SpecConn SpecMsg SpecResp.

(** Opening again, closing the direction of the client, chunks and gaps of no bytes. *)
Inductive idle : op -> Prop :=
| idle_open : idle OpOpen
| idle_close : idle OpReqClose
| idle_req c : chunk_size c = 0 -> fresh_chunk c = true -> idle (OpReq c)
| idle_resp c : chunk_size c = 0 -> fresh_chunk c = true -> idle (OpResp c).
(** Rounds of requests and responses with such calls between them. *)
Definition idle_ops (x : round * list op) : list op :=
  map (fun c => OpReq (pd_slice c)) (rd_up (fst x)) ++ snd x ++ map (fun c => OpResp (pd_slice c)) (rd_down (fst x)).
Definition idle_conversation (rs : list (round * list op)) : list op := OpOpen :: concat (map idle_ops rs).
(** What the calls return: the data calls that bring something ask for more, the others return CLOSED. *)
Definition idle_result (o : op) : option sstate :=
  match o with OpReq c | OpResp c => Some (if chunk_size c =? 0 then SsClosed else SsData) | _ => None end.
