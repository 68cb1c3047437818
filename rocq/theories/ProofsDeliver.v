(** What the body callbacks of a connection get out of the decompressors. *)
From Verif Require Import Base ModelState ModelTx ModelConn ModelDecomp SpecConn SpecDecomp ProofsHist ProofsDecomp ProofsInflate ProofsGzip ProofsBomb.
From Coq Require Import Lia.
Open Scope N_scope.

(** What a body callback sees of a decompressor's call: nothing of empty data, and in a response nothing of the end. *)
Definition skips (sd : side) (p : payload) : bool := match sd, p with SReq, PlData b => is_nil b | SReq, _ => false | SResp, _ => payload_len p =? 0 end.
Definition shown (sd : side) (d : option bytes) : list payload := if skips sd (opt_payload d) then [] else [opt_payload d].
Definition plus (b : bool) (p : payload) : list payload := if b then [p] else [].
Lemma hook_eqb_refl a : hook_eqb a a = true.
Proof. unfold hook_eqb. destruct (_ : {a = a} + {a <> a}); congruence. Qed.
Lemma hook_eqb_neq a b : a <> b -> hook_eqb a b = false.
Proof. unfold hook_eqb. destruct (_ : {a = b} + {a <> b}); congruence. Qed.
Lemma plus_split sd h p : h = by_side sd HRequestBodyTx HResponseBodyTx \/ h = by_side sd HRequestBody HResponseBody ->
  plus (hook_eqb (by_side sd HRequestBodyTx HResponseBodyTx) h) p ++ plus (hook_eqb (by_side sd HRequestBody HResponseBody) h) p = plus true p.
Proof.
  intros [->| ->].
  - rewrite hook_eqb_refl, hook_eqb_neq by (destruct sd; discriminate). apply app_nil_r.
  - rewrite hook_eqb_refl, hook_eqb_neq by (destruct sd; discriminate). reflexivity.
Qed.
Section Deliver.
Variables (sd : side) (i : N) (h : hook) (e : env).
Hypothesis Hh : h = by_side sd HRequestBodyTx HResponseBodyTx \/ h = by_side sd HRequestBody HResponseBody.
Hypothesis Hyes : takes_bodies e.
Definition has_got (d : txdir) (Y : list payload) (s : st) : Prop :=
  s_idx sd s = i /\ (exists t, tx_get i (s_txs s) = Some t /\ x_dir sd t = d) /\ got h i s = Y.
Lemma g_the d Y s : has_got d Y s -> exists t, the_tx sd e s = (ROk t, s) /\ x_dir sd t = d.
Proof using Hh Hyes. intros (Ei & (t & Et & Ed) & _). exists t. unfold the_tx, cur_tx, bind. rewrite Ei, Et. auto. Qed.
Lemma g_need d Y s : has_got d Y s -> exists t, need_tx sd e s = (ROk t, s) /\ x_dir sd t = d.
Proof using Hh Hyes. intros (Ei & (t & Et & Ed) & _). exists t. unfold need_tx, cur_tx, bind. rewrite Ei, Et. auto. Qed.
Lemma g_mod d Y s f : has_got d Y s -> exists s', mod_txd sd f e s = (ROk tt, s') /\ has_got (f d) Y s'.
Proof using Hh Hyes.
  intros (Ei & (t & Et & Ed) & Hb). unfold mod_txd. rewrite (mod_tx_eval sd _ e s t) by (now rewrite Ei). eexists. split; [reflexivity|].
  split; [destruct sd; exact Ei|]. split; [|exact Hb]. exists (upd_dir sd f t). split; [|rewrite <- Ed; destruct sd; reflexivity].
  cbn [s_txs set_s_txs]. rewrite Ei. apply tx_get_set. congruence.
Qed.
Lemma of_push ev a s : got h i (set_s_trace ((ev, a) :: s_trace s) s) = got h i s ++ plus (hook_eqb (ev_hook ev) h && (ev_tx ev =? i)) (ev_data ev).
Proof using Hh Hyes.
  unfold got, events. cbn [s_trace set_s_trace map fst rev]. rewrite filter_app, map_app. cbn [filter]. now destruct (hook_eqb (ev_hook ev) h && (ev_tx ev =? i)).
Qed.
Lemma g_hook d Y s hk p : body_hook hk = true -> has_got d Y s -> exists s', data_hook hk i p e s = (ROk tt, s') /\ has_got d (Y ++ plus (hook_eqb hk h) p) s'.
Proof using Hh Hyes.
  intros Hk (Ei & (t & Et & Ed) & Hb). unfold data_hook, bind, call. cbv zeta. cbn beta iota. set (ev := mk_ev hk i p). destruct (Hyes s ev Hk) as [E|E].
  all: eexists; split; [unfold check; rewrite E; reflexivity|]; split; [destruct sd; exact Ei|]; split; [exists t; auto|]; rewrite of_push; cbn [ev ev_hook ev_tx ev_data]; rewrite N.eqb_refl, andb_true_r, Hb; reflexivity.
Qed.
Lemma g_run_hook d Y s p : has_got d Y s -> exists s', run_hook_body_data sd (opt_payload p) e s = (ROk tt, s') /\ has_got d (Y ++ shown sd p) s'.
Proof using Hh Hyes.
  intros Hs. unfold run_hook_body_data. unfold bind at 1. rewrite (by_side_the sd e s (match tx_get i (s_txs s) with Some t => t | None => tx_new end)) by (destruct Hs as (-> & (t & -> & _) & _); reflexivity).
  cbv zeta. unfold shown. fold (skips sd (opt_payload p)). destruct (skips sd (opt_payload p)).
  - exists s. rewrite app_nil_r. auto.
  - unfold bind at 1. destruct (g_the d Y s Hs) as (t & -> & _). unfold bind at 1. cbn [get]. cbv beta iota.
    assert (Ei : s_idx sd s = i) by apply Hs. rewrite Ei. unfold bind at 1.
    assert (B1 : body_hook (by_side sd HRequestBodyTx HResponseBodyTx) = true) by (destruct sd; reflexivity).
    assert (B2 : body_hook (by_side sd HRequestBody HResponseBody) = true) by (destruct sd; reflexivity).
    destruct (g_hook d Y s _ (opt_payload p) B1 Hs) as (s1 & -> & H1). destruct (g_hook d _ s1 _ (opt_payload p) B2 H1) as (s2 & -> & H2). exists s2. split; [reflexivity|].
    rewrite <- app_assoc in H2. rewrite (plus_split sd h (opt_payload p) Hh) in H2. exact H2.
Qed.
Lemma g_log d Y s lv c : has_got d Y s -> exists s', log lv c e s = (ROk tt, s') /\ has_got d Y s'.
Proof using Hh Hyes. intros (Ei & Ht & Hb). unfold log. eexists. split; [reflexivity|]. destruct (_ <=? _); (split; [destruct sd; exact Ei|]); split; assumption. Qed.
(** Everything but the entity length. *)
Definition but_elen (d : txdir) : txdir := set_t_elen 0 d.
Lemma g_cb d Y s p : has_got d Y s -> t_elen d + opt_len p <= c_bomb_limit (e_cfg e) -> c_bomb_limit (e_cfg e) < u64_mod ->
  exists s', decompressor_callback sd p e s = (ROk true, s') /\ has_got (grown (opt_len p) d) (Y ++ shown sd p) s'.
Proof using Hh Hyes.
  intros Hs He Hl. unfold decompressor_callback, add_elen. unfold bind at 1. destruct (g_mod d Y s (grown (opt_len p)) Hs) as (s1 & E1 & H1). unfold grown in E1 at 1. rewrite E1. clear E1.
  unfold bind at 1, try at 1. destruct (g_run_hook _ _ s1 p H1) as (s2 & -> & H2). cbv beta iota.
  unfold bind at 1. destruct (g_the _ _ s2 H2) as (t & -> & Et). unfold bind at 1. cbn [ask]. cbv beta iota. rewrite Et.
  assert (bomb (e_cfg e) (grown (opt_len p) d) = false) as ->.
  { unfold bomb. assert (c_bomb_limit (e_cfg e) <? t_elen (grown (opt_len p) d) = false) as ->; [|reflexivity]. apply N.ltb_ge. unfold grown. cbn [t_elen set_t_elen]. unfold wadd. rewrite N.mod_small by lia. exact He. }
  exists s2. split; [reflexivity|exact H2].
Qed.
Lemma g_tree {A} (ok : A -> bool) slow (m : dm A) : forall a d Y s, result m = Some a -> has_got d Y s -> t_elen d + blen (joined (calls m)) <= c_bomb_limit (e_cfg e) -> c_bomb_limit (e_cfg e) < u64_mod ->
  exists s' d', run_tree sd (tree ok slow m) e s = (ROk (ok a, slow), s') /\ has_got d' (Y ++ flat_map (shown sd) (calls m)) s' /\ but_elen d' = but_elen d /\ t_elen d' = t_elen d + blen (joined (calls m)).
Proof using Hh Hyes.
  induction m as [b|p k IH|]; intros a d Y s Ha Hs He Hl; cbn [result calls tree run_tree flat_map] in *.
  - injection Ha as ->. exists s, d. repeat split; try reflexivity; try apply Hs; cbn; [rewrite app_nil_r; apply Hs|unfold blen; cbn; lia].
  - change (joined (p :: calls (k true))) with (joined ([p] ++ calls (k true))) in *. rewrite joined_app in *.
    assert (Ej : blen (joined [p] ++ joined (calls (k true))) = opt_len p + blen (joined (calls (k true)))).
    { unfold blen. rewrite app_length. destruct p; cbn; [rewrite app_nil_r|]; unfold blen; lia. }
    rewrite Ej in *. unfold bind at 1. destruct (g_cb d Y s p Hs) as (s1 & -> & H1); [lia|exact Hl|].
    assert (Eg : t_elen (grown (opt_len p) d) = t_elen d + opt_len p) by (unfold grown; cbn [t_elen set_t_elen]; unfold wadd; rewrite N.mod_small by lia; reflexivity).
    destruct (IH true a _ _ s1 Ha H1) as (s2 & d2 & -> & H2 & H3 & H4); [lia|exact Hl|]. exists s2, d2. split; [reflexivity|]. split; [now rewrite app_assoc|]. split; [exact H3|lia].
  - discriminate.
Qed.
Variables (r : raw) (lz : bool) (f : nat) (slow : st -> decomp -> bytes -> bool).
Hypothesis Hcodec : e_codec e = libhtp_codec r lz f slow.
Hypothesis Hl : c_bomb_limit (e_cfg e) < u64_mod.
(** A message with decompressors [dc], which are [c]. *)
Definition has_chain (d : txdir) (dc : decomp) (c : chain r) : Prop :=
  t_cep d <> CeNone /\ t_cep d <> CeError /\ t_dec d = Some dc /\ chain_of r lz f dc = Some c.
Lemma g_body d Y s dc c b c' v : has_got d Y s -> has_chain d dc c -> (forall s, slow s dc b = v) ->
  result (decompress r lz f c b) = Some (IoOk tt, c') -> t_elen d + blen (joined (calls (decompress r lz f c b))) <= c_bomb_limit (e_cfg e) ->
  exists s' d', body_data sd (Some b) e s = (ROk tt, s') /\ has_got d' (Y ++ flat_map (shown sd) (calls (decompress r lz f c b))) s' /\
    has_chain d' (DoFeed b v :: dc) (if v then set_passthrough r true c' else c') /\ t_elen d' = t_elen d + blen (joined (calls (decompress r lz f c b))).
Proof using Hh Hyes Hcodec Hl.
  intros Hs (Hz & He & Hdc & Hc) Hv Hr Hb. unfold body_data. unfold bind at 1. destruct (g_need d Y s Hs) as (t0 & -> & _). unfold bind at 1.
  destruct (g_mod d Y s (took (blen b)) Hs) as (s1 & E1 & H1). unfold took in E1 at 1. unfold add_mlen. cbn [opt_len]. rewrite E1. clear E1.
  unfold bind at 1. destruct (g_the _ _ s1 H1) as (t & -> & Et). rewrite Et. change (t_cep (took (blen b) d)) with (t_cep d). change (t_dec (took (blen b) d)) with (t_dec d). rewrite Hdc.
  assert (Hch : chain_of r lz f (DoFeed b v :: dc) = Some (if v then set_passthrough r true c' else c')) by (cbn [chain_of]; rewrite Hc, all_accept_result, Hr; reflexivity).
  assert (K : exists s' d', (mod_txd sd (set_t_dec None) ;; (let* e := ask in let* s := get in
          let* (ok, slow) := run_tree sd (e_codec e s dc (Some b)) in
          if ok then when slow (log LvError "COMPRESSION_BOMB") ;; mod_txd sd (set_t_dec (Some (DoFeed b slow :: dc))) else fail SError)) e s1 = (ROk tt, s') /\
     has_got d' (Y ++ flat_map (shown sd) (calls (decompress r lz f c b))) s' /\ t_cep d' = t_cep d /\
    t_dec d' = Some (DoFeed b v :: dc) /\ t_elen d' = t_elen d + blen (joined (calls (decompress r lz f c b)))).
  { unfold bind at 1. destruct (g_mod _ _ s1 (set_t_dec None) H1) as (s2 & -> & H2). unfold bind at 1. cbn [ask]. cbv beta iota. unfold bind at 1. cbn [get]. cbv beta iota. unfold bind at 1.
    rewrite Hcodec. unfold libhtp_codec. rewrite Hc, Hv.
    destruct (g_tree (fun x : ior unit * chain r => is_ok (fst x)) v (decompress r lz f c b) _ _ _ s2 Hr H2 Hb Hl) as (s3 & d3 & -> & H3 & H4 & H5).
    cbn [fst is_ok]. unfold bind at 1.
    assert (exists s3', when v (log LvError "COMPRESSION_BOMB") e s3 = (ROk tt, s3') /\ has_got d3 (Y ++ flat_map (shown sd) (calls (decompress r lz f c b))) s3') as (s3' & -> & H3').
    { destruct v; cbn [when]; [now apply g_log|exists s3; auto]. }
    destruct (g_mod _ _ s3' (set_t_dec (Some (DoFeed b v :: dc))) H3') as (s4 & -> & H6). exists s4, (set_t_dec (Some (DoFeed b v :: dc)) d3).
    split; [reflexivity|]. split; [exact H6|]. split; [|split; [reflexivity|exact H5]]. change (t_cep d3 = t_cep d). change (t_cep (but_elen d3) = t_cep d). rewrite H4. reflexivity. }
  destruct K as (s' & d' & K1 & K2 & K3 & K4 & K5).
  exists s', d'. unfold has_chain. rewrite K3. destruct (t_cep d); try congruence; (split; [exact K1|]; split; [exact K2|]; split; [|exact K5]; split; [discriminate|]; split; [discriminate|]; auto).
Qed.
(** The end of the body. *)
Lemma g_end d Y s dc c : has_got d Y s -> has_chain d dc c -> result (c_finish r lz f c) = Some (IoOk tt) ->
  t_elen d + blen (joined (calls (c_finish r lz f c))) <= c_bomb_limit (e_cfg e) ->
  exists s', body_data sd None e s = (ROk tt, s') /\ got h i s' = Y ++ flat_map (shown sd) (calls (c_finish r lz f c)).
Proof using Hh Hyes Hcodec Hl.
  intros Hs (Hz & He & Hdc & Hc) Hr Hb. unfold body_data. unfold bind at 1. destruct (g_need d Y s Hs) as (t0 & -> & _). unfold bind at 1.
  destruct (g_mod d Y s (took 0) Hs) as (s1 & E1 & H1). unfold took in E1 at 1. unfold add_mlen. cbn [opt_len]. rewrite E1. clear E1.
  unfold bind at 1. destruct (g_the _ _ s1 H1) as (t & -> & Et). rewrite Et. change (t_cep (took 0 d)) with (t_cep d). change (t_dec (took 0 d)) with (t_dec d). rewrite Hdc.
  assert (K : exists s', (mod_txd sd (set_t_dec None) ;; (let* e := ask in let* s := get in ignore (run_tree sd (e_codec e s dc None)))) e s1 = (ROk tt, s') /\
     got h i s' = Y ++ flat_map (shown sd) (calls (c_finish r lz f c))).
  { unfold bind at 1. destruct (g_mod _ _ s1 (set_t_dec None) H1) as (s2 & -> & H2). unfold bind at 1. cbn [ask]. cbv beta iota. unfold bind at 1. cbn [get]. cbv beta iota.
    rewrite Hcodec. unfold libhtp_codec. rewrite Hc.
    destruct (g_tree is_ok false (c_finish r lz f c) _ _ _ s2 Hr H2 Hb Hl) as (s3 & d3 & E3 & H3 & H4 & H5). exists s3. split; [|apply H3]. unfold ignore, bind, try. rewrite E3. reflexivity. }
  destruct (t_cep d); try congruence; exact K.
Qed.
Lemma g_pieces k bs : (forall s dc b, (feeds dc < k)%nat -> slow s dc b = false) -> forall d Y s dc c l c', (feeds dc + length bs <= k)%nat -> has_got d Y s -> has_chain d dc c ->
  delivered r lz f c bs = Some l -> after r lz f c bs = Some c' -> t_elen d + blen (joined l) <= c_bomb_limit (e_cfg e) ->
  exists s' d' dc', body_pieces sd bs e s = (ROk tt, s') /\ has_got d' (Y ++ flat_map (shown sd) l) s' /\ has_chain d' dc' c' /\ feeds dc' = (feeds dc + length bs)%nat /\ t_elen d' = t_elen d + blen (joined l).
Proof using Hh Hyes Hcodec Hl.
  intros Hslow. induction bs as [|b bs IH]; intros d Y s dc c l c' Hk Hs Hd Hdl Ha Hb; cbn [delivered after] in *.
  - injection Hdl as <-. injection Ha as <-. exists s, d, dc. split; [reflexivity|]. cbn [flat_map]. rewrite app_nil_r. split; [exact Hs|]. split; [exact Hd|]. split; [cbn [length]; lia|]. unfold blen. cbn [joined flat_map length]. lia.
  - destruct (result (decompress r lz f c b)) as [[[[]|] c1]|] eqn:Er; try discriminate.
    destruct (delivered r lz f c1 bs) as [l'|] eqn:El; [|discriminate]. injection Hdl as <-. rewrite joined_app in *.
    assert (Eb : blen (joined (calls (decompress r lz f c b)) ++ joined l') = blen (joined (calls (decompress r lz f c b))) + blen (joined l')) by (unfold blen; rewrite app_length; lia).
    rewrite Eb in *. cbn [length] in Hk. destruct (g_body d Y s dc c b c1 false Hs Hd (fun s => Hslow s dc b ltac:(lia)) Er) as (s1 & d1 & E1 & H1 & H2 & H3); [lia|].
    unfold body_pieces. cbn [for_each]. unfold bind at 1. rewrite E1. assert (Ef : feeds (DoFeed b false :: dc) = S (feeds dc)) by reflexivity.
    destruct (IH d1 _ s1 (DoFeed b false :: dc) c1 l' c' ltac:(lia) H1 H2 El Ha) as (s2 & d2 & dc2 & E2 & H4 & H5 & H6 & H7); [lia|].
    exists s2, d2, dc2. split; [exact E2|]. rewrite flat_map_app, app_assoc. split; [exact H4|]. split; [exact H5|]. split; [rewrite H6, Ef; cbn [length]; lia|lia].
Qed.
(** When the time is up. *)
Lemma g_rest bs : forall d Y s dc c, has_got d Y s -> has_chain d dc c -> dry r c -> all_pass r c -> (depth r c + 4 <= f)%nat -> (forall dc b s s', slow s dc b = slow s' dc b) ->
  t_elen d + blen (concat bs) <= c_bomb_limit (e_cfg e) ->
  exists s', body_pieces sd bs e s = (ROk tt, s') /\ got h i s' = Y ++ flat_map (shown sd) (map Some bs).
Proof using Hh Hyes Hcodec Hl.
  induction bs as [|b bs IH]; intros d Y s dc c Hs Hd Hdry Hp Hf Hsl Hb; cbn [concat map flat_map] in *.
  - exists s. rewrite app_nil_r. split; [reflexivity|apply Hs].
  - destruct (pass_decompress r lz c b Hdry Hp) as (c' & D1 & D2 & D3 & D4). destruct (D4 f Hf) as [R J].
    assert (Ej : joined (calls (decompress r lz f c b)) = b) by (rewrite J; destruct b; cbn; [reflexivity|now rewrite app_nil_r]).
    assert (Eh : flat_map (shown sd) (calls (decompress r lz f c b)) = shown sd (Some b)) by (rewrite J; destruct b; cbn [flat_map]; [destruct sd; reflexivity|now rewrite app_nil_r]).
    assert (Eb : blen (b ++ concat bs) = blen b + blen (concat bs)) by (unfold blen; rewrite app_length; lia). rewrite Eb in Hb.
    destruct (g_body d Y s dc c b c' (slow s dc b) Hs Hd (fun s' => Hsl dc b s' s) R) as (s1 & d1 & E1 & H1 & H2 & H3); [rewrite Ej; lia|]. rewrite Ej in H3. rewrite Eh in H1.
    unfold body_pieces. cbn [for_each]. unfold bind at 1. rewrite E1. destruct (IH d1 _ s1 _ _ H1 H2) as (s2 & E2 & H4); [| | |exact Hsl|lia|].
    + destruct (slow s dc b); [now apply dry_pass|exact D1].
    + destruct (slow s dc b); [now apply dry_all_pass|exact D2].
    + destruct (slow s dc b); [rewrite pass_depth|]; lia.
    + exists s2. split; [exact E2|]. rewrite H4. now rewrite app_assoc.
Qed.
End Deliver.
Lemma shown_data sd l : flat_map (shown sd) (map Some l) = map PlData (filter (fun b => negb (is_nil b)) l).
Proof.
  induction l as [|b l IH]; [reflexivity|]. cbn [map flat_map filter]. rewrite IH. destruct b as [|a b]; [destruct sd; reflexivity|]. unfold shown, skips. cbn [opt_payload is_nil negb map].
  destruct sd; [reflexivity|]. assert (payload_len (PlData (a :: b)) =? 0 = false) as -> by (apply N.eqb_neq; cbn; lia). reflexivity.
Qed.
Lemma concat_filter (l : list bytes) : concat (filter (fun b => negb (is_nil b)) l) = concat l.
Proof. induction l as [|b l IH]; [reflexivity|]. destruct b; cbn; [exact IH|now rewrite IH]. Qed.
Lemma nil_filter (l : list bytes) : ~ In [] (filter (fun b => negb (is_nil b)) l).
Proof. intros H. apply filter_In in H. destruct H as [_ H]. discriminate. Qed.
Lemma joined_map l : joined (map Some l) = concat l.
Proof. induction l as [|b l IH]; [reflexivity|]. cbn. now rewrite <- IH. Qed.
Theorem decoded_body r lz ces D V E bs : layers_decode r lz ces D V E -> V (concat bs) -> bs <> [] ->
  exists f0, forall f e sd h s t, (f0 <= f)%nat ->
    e_codec e = libhtp_codec r lz f (fun _ _ _ => false) -> takes_bodies e ->
    h = by_side sd HRequestBodyTx HResponseBodyTx \/ h = by_side sd HRequestBody HResponseBody ->
    tx_get (s_idx sd s) (s_txs s) = Some t -> t_dec (x_dir sd t) = Some (fresh_decomp ces) ->
    t_cep (x_dir sd t) <> CeNone -> t_cep (x_dir sd t) <> CeError ->
    t_elen (x_dir sd t) + blen (D (concat bs)) <= c_bomb_limit (e_cfg e) -> c_bomb_limit (e_cfg e) < 2 ^ 64 ->
    exists s' l, body_pieces sd bs e s = (ROk tt, s') /\ got h (s_idx sd s) s' = got h (s_idx sd s) s ++ map PlData l /\ ~ In [] l /\ concat l = D (concat bs).
Proof.
  intros Hd Hv Nb. destruct (chain_dec r lz ces D V E Hd) as (C & HC & H0). destruct (delivered_dec r lz C D V E _ HC bs _ [] [] H0 Hv) as (f0 & o & c' & _ & Eo & _ & _ & Hf); [auto|].
  exists f0. intros f e sd h s t Lf Hc Hy Hh Ht Hdc Hz He Hb Hl. destruct (Hf f Lf) as (Ea & l & El & Ej). specialize (Eo Nb). cbn [app] in Eo. rewrite <- Eo, <- Ej in Hb |- *.
  destruct (g_pieces sd (s_idx sd s) h e Hh Hy r lz f _ Hc Hl (feeds (fresh_decomp ces) + length bs) bs (fun _ _ _ _ => eq_refl) (x_dir sd t) (got h (s_idx sd s) s) s (fresh_decomp ces) (new_chain r lz ces) l c' (Nat.le_refl _))
    as (s' & d' & dc' & E1 & H1 & _); try assumption.
  - split; [reflexivity|]. split; [exists t; auto|reflexivity].
  - split; [exact Hz|]. split; [exact He|]. split; [exact Hdc|apply fresh_chain].
  - destruct (data_map l (data_delivered r lz f bs _ l El)) as (l0 & -> & E0). rewrite shown_data in H1. exists s', (filter (fun b => negb (is_nil b)) l0).
    split; [exact E1|]. split; [apply H1|]. split; [apply nil_filter|]. now rewrite concat_filter, joined_map.
Qed.
Theorem whole_decoded r lz ces D V E bs : layers_decode r lz ces D V E -> V (concat bs) -> E (concat bs) ->
  exists f0, forall f e sd h s t, (f0 <= f)%nat ->
    e_codec e = libhtp_codec r lz f (fun _ _ _ => false) -> takes_bodies e ->
    h = by_side sd HRequestBodyTx HResponseBodyTx \/ h = by_side sd HRequestBody HResponseBody ->
    tx_get (s_idx sd s) (s_txs s) = Some t -> t_dec (x_dir sd t) = Some (fresh_decomp ces) ->
    t_cep (x_dir sd t) <> CeNone -> t_cep (x_dir sd t) <> CeError ->
    t_elen (x_dir sd t) + blen (D (concat bs)) <= c_bomb_limit (e_cfg e) -> c_bomb_limit (e_cfg e) < 2 ^ 64 ->
    exists l, got h (s_idx sd s) (snd (whole_body sd bs e s)) = got h (s_idx sd s) s ++ map PlData l ++ by_side sd [PlNone] [] /\ ~ In [] l /\ concat l = D (concat bs).
Proof.
  intros Hd Hv HE. destruct (chain_dec r lz ces D V E Hd) as (C & HC & H0). destruct (delivered_dec r lz C D V E _ HC bs _ [] [] H0 Hv) as (f1 & o & c' & Hc' & _ & _ & _ & Hf); [auto|].
  destruct (cd_finish _ _ _ _ _ _ _ HC c' _ _ Hc' Hv HE) as (f2 & o2 & E2 & Hf2). cbn [app] in E2.
  exists (Nat.max f1 f2). intros f e sd h s t Lf Hc Hy Hh Ht Hdc Hz He Hb Hl. destruct (Hf f ltac:(lia)) as (Ea & l & El & Ej). destruct (Hf2 f ltac:(lia)) as (R2 & l2 & C2 & N2 & J2).
  rewrite <- E2, <- Ej, <- J2 in Hb |- *. assert (Eb : blen (joined l ++ joined l2) = blen (joined l) + blen (joined l2)) by (unfold blen; rewrite app_length; lia). rewrite Eb in Hb.
  destruct (g_pieces sd (s_idx sd s) h e Hh Hy r lz f _ Hc Hl (feeds (fresh_decomp ces) + length bs) bs (fun _ _ _ _ => eq_refl) (x_dir sd t) (got h (s_idx sd s) s) s (fresh_decomp ces) (new_chain r lz ces) l c' (Nat.le_refl _))
    as (s' & d' & dc' & E1 & H1 & H2 & _ & H3); try assumption.
  { split; [reflexivity|]. split; [exists t; auto|reflexivity]. }
  { split; [exact Hz|]. split; [exact He|]. split; [exact Hdc|apply fresh_chain]. }
  { lia. }
  destruct (g_end sd (s_idx sd s) h e Hh Hy r lz f _ Hc Hl d' _ s' dc' c' H1 H2 R2) as (s2 & E3 & H4).
  { rewrite C2, joined_app. cbn [joined flat_map]. rewrite !app_nil_r. lia. }
  assert (Ew : snd (whole_body sd bs e s) = s2). { unfold whole_body, ignore, bind, try. rewrite E1, E3. reflexivity. }
  rewrite Ew, H4, C2. destruct (data_map l (data_delivered r lz f bs _ l El)) as (l0 & -> & _). destruct (data_map l2 N2) as (l3 & -> & _).
  exists (filter (fun b => negb (is_nil b)) (l0 ++ l3)). split; [|split; [apply nil_filter|now rewrite concat_filter, !joined_map, concat_app]].
  rewrite flat_map_app, !shown_data, filter_app, map_app, <- !app_assoc. do 3 f_equal. destruct sd; reflexivity.
Qed.
Theorem slow_body r lz ces D V E bs k : layers_decode r lz ces D V E -> V (concat (firstn (S k) bs)) -> (k < length bs)%nat ->
  exists f0, forall f e sd h s t slow, (f0 <= f)%nat ->
    e_codec e = libhtp_codec r lz f (fun _ dc _ => slow (feeds dc)) -> (forall n, (n < k)%nat -> slow n = false) -> slow k = true -> takes_bodies e ->
    h = by_side sd HRequestBodyTx HResponseBodyTx \/ h = by_side sd HRequestBody HResponseBody ->
    tx_get (s_idx sd s) (s_txs s) = Some t -> t_dec (x_dir sd t) = Some (fresh_decomp ces) ->
    t_cep (x_dir sd t) <> CeNone -> t_cep (x_dir sd t) <> CeError ->
    let out := D (concat (firstn (S k) bs)) ++ concat (skipn (S k) bs) in
    t_elen (x_dir sd t) + blen out <= c_bomb_limit (e_cfg e) -> c_bomb_limit (e_cfg e) < 2 ^ 64 ->
    exists s' l, body_pieces sd bs e s = (ROk tt, s') /\ got h (s_idx sd s) s' = got h (s_idx sd s) s ++ map PlData l /\ ~ In [] l /\ concat l = out.
Proof.
  intros Hd Hv Hk. destruct (chain_dec r lz ces D V E Hd) as (C & HC & H0).
  assert (exists b, firstn (S k) bs = firstn k bs ++ [b]) as (b & Eb).
  { clear - Hk. revert k Hk. induction bs as [|a bs IH]; intros k Hk; [cbn in Hk; lia|]. destruct k as [|k]; [now exists a|]. destruct (IH k) as (b & Eb); [cbn in Hk; lia|]. exists b. rewrite firstn_cons, Eb. reflexivity. }
  rewrite Eb, concat_app in *. cbn [concat] in *. rewrite app_nil_r in *. set (b1 := firstn k bs) in *. set (b2 := skipn (S k) bs) in *.
  assert (Ebs : bs = b1 ++ b :: b2) by (rewrite <- (firstn_skipn (S k) bs), Eb, <- app_assoc; reflexivity). assert (Lb1 : length b1 = k) by (unfold b1; apply firstn_length_le; lia).
  destruct (delivered_dec r lz C D V E _ HC b1 _ [] [] H0) as (f1 & o & c1 & Hc1 & _ & _ & _ & Hf); [eapply (cd_valid _ _ _ _ _ _ _ HC), Hv|auto|].
  destruct (decompress_dec r lz C D V E _ HC c1 _ _ b Hc1 Hv I) as (f2 & o2 & c2 & _ & Eo2 & Hdry & Hf2). cbn [app] in Eo2.
  exists (Nat.max (Nat.max f1 f2) (depth r c2 + 4)). intros f e sd h s t slow Lf Hc Hs1 Hs2 Hy Hh Ht Hdc Hz He Hb Hl. set (out := D (concat b1 ++ b) ++ concat b2) in *.
  destruct (Hf f ltac:(lia)) as (Ea & l & El & Ej). destruct (Hf2 f ltac:(lia)) as [R2 J2].
  assert (Eout : out = joined l ++ joined (calls (decompress r lz f c1 b)) ++ concat b2) by (unfold out; rewrite <- Eo2, Ej, J2; now rewrite <- app_assoc). rewrite Eout in Hb |- *.
  assert (Eo : blen (joined l ++ joined (calls (decompress r lz f c1 b)) ++ concat b2) = blen (joined l) + blen (joined (calls (decompress r lz f c1 b))) + blen (concat b2)) by (unfold blen; rewrite !app_length; lia). rewrite Eo in Hb.
  assert (F0 : feeds (fresh_decomp ces) = O) by (unfold feeds, fresh_decomp; clear; induction ces as [|ce ces IH]; [reflexivity|exact IH]).
  destruct (g_pieces sd (s_idx sd s) h e Hh Hy r lz f _ Hc Hl k b1 (fun _ dc _ H => Hs1 (feeds dc) H) (x_dir sd t) (got h (s_idx sd s) s) s (fresh_decomp ces) (new_chain r lz ces) l c1 ltac:(lia))
    as (s1 & d1 & dc1 & E1 & G1 & G2 & G3 & G4); try assumption.
  { split; [reflexivity|]. split; [exists t; auto|reflexivity]. }
  { split; [exact Hz|]. split; [exact He|]. split; [exact Hdc|apply fresh_chain]. }
  { lia. }
  assert (F1 : feeds dc1 = k) by lia.
  destruct (g_body sd (s_idx sd s) h e Hh Hy r lz f _ Hc Hl d1 _ s1 dc1 c1 b c2 true G1 G2 ltac:(intros ?; cbv beta; rewrite F1; exact Hs2) R2) as (s2 & d2 & E2 & G5 & G6 & G7); [lia|].
  destruct (g_rest sd (s_idx sd s) h e Hh Hy r lz f _ Hc Hl b2 d2 _ s2 _ _ G5 G6) as (s3 & E3 & G8).
  { now apply dry_pass. } { now apply dry_all_pass. } { rewrite pass_depth. lia. } { reflexivity. } { lia. }
  destruct (data_map l (data_delivered r lz f b1 _ l El)) as (l0 & -> & _). destruct (data_map _ (data_decompress r lz f c1 b)) as (l1 & L1 & _). rewrite L1 in *.
  exists s3, (filter (fun b => negb (is_nil b)) (l0 ++ l1 ++ b2)). split; [|split; [|split; [apply nil_filter|now rewrite concat_filter, !joined_map, !concat_app]]].
  - rewrite Ebs. unfold body_pieces in *. clear - E1 E2 E3. revert s E1. induction b1 as [|a b1 IH]; intros s E1.
    + cbn [app for_each] in *. injection E1 as ->. unfold bind at 1. rewrite E2. exact E3.
    + cbn [app for_each] in *. unfold bind in E1 at 1. unfold bind at 1. destruct (body_data sd (Some a) e s) as [[x|x| |] s0]; try discriminate. apply IH, E1.
  - rewrite G8, !shown_data, !filter_app, !map_app, <- !app_assoc. reflexivity.
Qed.
