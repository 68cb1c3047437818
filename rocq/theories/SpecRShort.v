(** Vocabulary of the property statements about responses that end before the length that their head announces. *)
From Verif Require Import Base Spec SpecTx ModelUtil ModelState ModelTx ModelConn SpecMsg SpecResp SpecConnect SpecRCut.

(** Requests that are answered, except that of the body of the last response, whose length is announced, only [ct_seen] comes. *)
Definition good_short_round (c : cut_round) : Prop :=
  Forall (fun x => good_message (fst x) /\ good_response (fst x) (snd x)) (ct_exchanges c) /\
  rp_content (ct_response c) = Plain (ct_seen c ++ ct_rest c) /\ ct_rest c <> [] /\
  concat (ct_up c) = texts (map fst (ct_exchanges c)) /\ ~ In [] (ct_up c) /\ clean (map fst (ct_exchanges c)) (ct_up c) [] /\
  concat (ct_down c) = rtexts (map snd (ct_whole c)) ++ head_text (ct_response c) ++ ct_seen c /\ ~ In [] (ct_down c) /\
  reply_clean (map snd (ct_exchanges c)) (ct_down c) (ct_rest c) /\ apart (map snd (ct_exchanges c)) (ct_down c) (ct_rest c).
(** The same response with what came as its body. *)
Definition ct_short (c : cut_round) : response :=
  mk_response (rp_code (ct_response c)) (rp_reason (ct_response c)) (rp_lines (ct_response c)) (Plain (ct_seen c)).
