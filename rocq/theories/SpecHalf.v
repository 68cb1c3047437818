(** Vocabulary of the property statements about a client that closes its direction. *)
From Verif Require Import Base Spec SpecTx ModelUtil ModelState ModelTx ModelConn SpecMsg SpecResp.

(** A round of requests and responses; between them the direction of the client is closed the given number of times. *)
Definition half_ops (x : round * nat) : list op :=
  map (fun c => OpReq (pd_slice c)) (rd_up (fst x)) ++ repeat OpReqClose (snd x) ++ map (fun c => OpResp (pd_slice c)) (rd_down (fst x)).
Definition half_conversation (rs : list (round * nat)) : list op := OpOpen :: concat (map half_ops rs).
(** What the calls return: the data calls ask for more, the others return nothing. *)
Definition half_result (o : op) : option sstate := match o with OpReq _ | OpResp _ => Some SsData | _ => None end.
