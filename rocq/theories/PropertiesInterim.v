(** Property C82 of properties.jsonl: interim responses. The interim responses, conversations with them and what the callbacks are told
    of them: SpecInterim.v. *)
From Coq Require Import List Lia Bool.
From Verif Require Import Base Spec SpecTx SpecMsg SpecResp SpecConnect SpecInterim ModelBstr ModelState ModelTx ModelConn SpecConn ProofsMsg ProofsTalk ProofsInterim3 PropertiesConn PropertiesMsg PropertiesResp.

(** * C82 *)
(** In a conversation of any rounds, any number of "100 Continue" responses may come before the first response of each round, in any
    segmentation that does not cut a status line of theirs or the next one and that starts each of them in a new segment. Every call asks
    for more, the callbacks hear of each interim response its status line and its raw header block, and everything else, the callbacks
    and the transactions, is as in the conversation without the interim responses. *)
Theorem C82_interim_responses_left_out : forall e hs, accepting e -> Forall good_held hs -> held_fits e hs ->
  exists s, history e (held_talk hs) = (ROk (None :: more (concat (map held_ops hs))), s) /\ held_events (e_cfg e) 0 hs (events s) /\
    (forall k m r, nth_error (exchanges (map hd_round hs)) k = Some (m, r) ->
      if c_auto_destroy (e_cfg e) then tx_get (N.of_nat k) (s_txs s) = None
      else exists t, tx_get (N.of_nat k) (s_txs s) = Some t /\ asked m t /\ answered r t).
Proof. exact held_parsed. Qed.
Print Assumptions C82_interim_responses_left_out.

(** Two interim responses before the only response of a round, one of them in three segments, and one before the first of three. *)
Definition go_on (ls : list hline) : response := mk_response (s2b "100") (s2b "Continue") ls (Plain []).
Definition go_on_via : response := go_on [hl "Via" "x"; hl "X-B" "5"].
Definition said_once : interim := mk_interim (go_on []) [head_text (go_on [])].
Definition said_slowly : interim := mk_interim go_on_via [firstn 30 (head_text go_on_via); firstn 8 (skipn 30 (head_text go_on_via)); skipn 38 (head_text go_on_via)].
Definition slow_round : round := mk_round [(msg1, rsp1)] (cut_by 3 999 (texts [msg1])) (firstn 20 (rtexts [rsp1]) :: cut_by 5 999 (skipn 20 (rtexts [rsp1]))).
Definition slow_talk : list held := mk_held slow_round [said_once; said_slowly] :: map (fun r => mk_held r []) ex_rounds ++ [mk_held slow_round [said_slowly]].
Lemma few_uses (ls : list hline) : forallb (fun x => Nat.leb (uses x (map kv_of ls)) 2) (map kv_of ls) = true -> forall x, In x (map kv_of ls) -> (uses x (map kv_of ls) <= 2)%nat.
Proof. intros H x I. rewrite forallb_forall in H. apply Nat.leb_le. now apply H. Qed.
Lemma go_on_good ls : forallb hlineb ls = true -> no_lineb "content-length" ls = true -> no_lineb "transfer-encoding" ls = true ->
  forallb (fun x => Nat.leb (uses x (map kv_of ls)) 2) (map kv_of ls) = true -> interim_head (go_on ls).
Proof.
  intros H1 H2 H3 H4. split; [reflexivity|]. split; [repeat constructor; discriminate|]. split; [intros c x E; injection E as <- _; reflexivity|].
  split; [rewrite forallb_forall in H1; apply Forall_forall; intros l Hl; apply hlineb_sound; now apply H1|]. split; [now apply no_lineb_iff|]. split; [now apply no_lineb_iff|]. split; [now apply few_uses|reflexivity].
Qed.
Lemma said_once_good : good_interim said_once.
Proof.
  split; [apply go_on_good; vm_compute; reflexivity|]. split; [vm_compute; reflexivity|]. split; [vm_compute; intuition discriminate|].
  exists [13; 10], []. vm_compute. reflexivity.
Qed.
Lemma said_slowly_good : good_interim said_slowly.
Proof.
  split; [apply go_on_good; vm_compute; reflexivity|]. split; [vm_compute; reflexivity|]. split; [vm_compute; intuition discriminate|].
  exists (firstn 7 (skipn 23 (head_text go_on_via))), (tl (in_segments said_slowly)). vm_compute. reflexivity.
Qed.
Lemma slow_talk_good : Forall good_held slow_talk.
Proof.
  assert (R0 : good_round slow_round) by (apply (Forall_inv (l := [])), roundsb_sound; vm_compute; reflexivity). pose proof ex_rounds_good as R1.
  assert (F : exists r rs, rd_answers slow_round = r :: rs /\ line_first r (rd_down slow_round)).
  { exists rsp1, []. split; [reflexivity|]. exists (skipn 17 (firstn 20 (rtexts [rsp1]))), (tl (rd_down slow_round)). vm_compute. reflexivity. }
  constructor; [split; [exact R0|]; split; [constructor; [exact said_once_good|constructor; [exact said_slowly_good|constructor]]|intros _; exact F]|].
  apply Forall_app. split.
  - rewrite Forall_forall in *. intros h I. apply in_map_iff in I as (r & <- & I). split; [now apply R1|]. split; [constructor|]. intro N0. now contradiction N0.
  - constructor; [|constructor]. split; [exact R0|]. split; [constructor; [exact said_slowly_good|constructor]|intros _; exact F].
Qed.
Example C82_ex : accepting ok_env /\ accepting destroying /\ Forall good_held slow_talk /\ held_fits ok_env slow_talk /\ held_fits destroying slow_talk /\ length (exchanges (map hd_round slow_talk)) = 7%nat.
Proof.
  split; [exact ex_accepting|]. split; [exact destroying_accepts|]. split; [exact slow_talk_good|].
  split; [split; [apply fitsb_sound; vm_compute; reflexivity|vm_compute; repeat (constructor; try discriminate)]|].
  split; [split; [apply fitsb_sound; vm_compute; reflexivity|vm_compute; repeat (constructor; try discriminate)]|].
  vm_compute. reflexivity.
Qed.

(** * What the conditions are for *)
Definition head_data (es : list event) : bytes := flat_map (fun ev => match ev_hook ev, ev_data ev with HResponseHeaderData, PlData d => d | _, _ => [] end) es.
Definition answer_report (segments : list bytes) := let s := snd (history ok_env (OpOpen :: OpReq (pd_slice (texts [msg1])) :: resps segments)) in
  (option_map (fun t => (x_statusn t, t_prog (x_resp t))) (tx_get 0 (s_txs s)), head_data (events s), reply_body_of 0 (events s)).
Definition rsp1_block : bytes := block_text (rp_lines rsp1) ++ [13; 10].
Definition one_via : response := go_on [hl "Via" "x"].
(** An interim response of only a status line with more bytes in its segment is not left any more: the final response is delivered as
    raw header data. With header lines its own raw header data is lost if the next status line is in the segment of its end. The bytes of
    a status line that is cut are delivered as raw header data too. *)
Theorem C82_segments_refuted :
  answer_report [head_text (go_on []); rtexts [rsp1]] = (Some (RnValid 200, PComplete), [13; 10] ++ rsp1_block, s2b "world") /\
  answer_report [head_text (go_on []) ++ rtexts [rsp1]] = (Some (RnValid 100, PHeaders), [13; 10] ++ rtexts [rsp1], []) /\
  answer_report [head_text one_via; rtexts [rsp1]] = (Some (RnValid 200, PComplete), s2b "Via: x" ++ [13; 10; 13; 10] ++ rsp1_block, s2b "world") /\
  answer_report [head_text one_via ++ rtexts [rsp1]] = (Some (RnValid 200, PComplete), rsp1_block, s2b "world") /\
  answer_report [head_text one_via; firstn 10 (rtexts [rsp1]); skipn 10 (rtexts [rsp1])] =
    (Some (RnValid 200, PComplete), s2b "Via: x" ++ [13; 10; 13; 10] ++ s2b "HTTP/1.1 2" ++ rsp1_block, s2b "world").
Proof. repeat split; vm_compute; reflexivity. Qed.
Print Assumptions C82_segments_refuted.
(** An interim response that announces a body is taken for the final one, and so is one with another status from 101 to 199. *)
Theorem C82_final_refuted :
  fst (fst (answer_report [head_text (go_on [hl "Content-Length" "5"]); rtexts [rsp1]])) = Some (RnValid 100, PBody) /\
  answer_report [head_text (mk_response (s2b "103") (s2b "Early Hints") [hl "Via" "x"] (Plain [])); rtexts [rsp1]] =
    (Some (RnValid 103, PComplete), s2b "Via: x" ++ [13; 10; 13; 10] ++ rsp1_block, []).
Proof. split; vm_compute; reflexivity. Qed.
Print Assumptions C82_final_refuted.
(** The lines of an interim response are forgotten, but the third and later ones of a name still count against the limit of 64 that holds
    for the final response. *)
Definition many (n : nat) : list hline := repeat (hl "X-M" "1") n.
Definition kept_value (k : string) (segments : list bytes) : option N :=
  match tx_get 0 (s_txs (snd (history ok_env (OpOpen :: OpReq (pd_slice (texts [msg1])) :: resps segments)))) with
  | Some t => option_map (fun h => blen (hd_value h)) (headers_get_nocase_nozero (t_headers (x_resp t)) (s2b k))
  | None => None
  end.
Definition rsp_many : response := mk_response (s2b "200") (s2b "OK") (many 9 ++ [hl "Content-Length" "0"]) (Plain []).
Theorem C82_limit_refuted :
  kept_value "x-m" [rtexts [rsp_many]] = Some 25 /\
  kept_value "x-m" [head_text (go_on (many 66)); rtexts [rsp_many]] = Some 4.
Proof. split; vm_compute; reflexivity. Qed.
Print Assumptions C82_limit_refuted.
