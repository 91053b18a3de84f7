(** Sizes of the datagrams a DTLS 1.2 endpoint sends. *)
From Verif Require Import Prelude PreludeFacts Types Codec Codec12 Record12 Monad MonadFacts Timer Env
  Config Aead Prf Window Context12 Engine12 Client12 Server12 Engine12Frame Send12Proofs History12
  History12Facts EndFrame12 Queue12Proofs View12 Poll12Proofs ClientInv12 ClientStep12 ServerInv12 ServerStep12 Events12 Timer12Proofs Tx12Proofs Keys12 Phase12.

(** A record as it is sent: content type, epoch, number, the bytes after the header. *)
Definition wire12 : Type := (N * N * N * bytes)%type.
Definition w_type (w : wire12) : N := fst (fst (fst w)).
Definition w_enc (w : wire12) : bytes := let '(ct, ep, n, f) := w in s_rec12 ct V_DTLS12 ep n f.
(** The datagram fits the MTU, or is one record that is not a handshake record. *)
Definition fits12 (mtu : N) (d : bytes) : Prop :=
  exists ws, d = concat (map w_enc ws) /\ (len d <= mtu \/ exists w, ws = [w] /\ w_type w <> CT_HS).

Lemma len_s_rec12 ct v ep n f : len (s_rec12 ct v ep n f) = 13 + len f.
Proof. unfold s_rec12. rewrite !len_app, !len_be. change (len [ct]) with 1. lia. Qed.

Section Mtu12.
Variable E : Env.
Variable mtu : N.
Hypothesis SL : seal12_len_ok E.
Hypothesis RO : rand_ok E.
Hypothesis ROOM0 : 25 <= mtu.
Hypothesis ROOM : forall cs i, find12 E cs = Some i -> 25 + N.of_nat (s12_enl i + s12_tag i) < mtu.

Definition cipher_suite_ok (e : Eng12) : Prop :=
  (forall cs k, k_ccipher (en_crypto e) = Some (cs, k) -> en_suite e = Some cs) /\
  (forall cs k, k_scipher (en_crypto e) = Some (cs, k) -> en_suite e = Some cs).
Definition entry_fits (mp : nat) (x : Entry12) : Prop :=
  let '(ct, ep, f) := x in ct = CT_HS -> 13 + len f + (if 1 <=? ep then N.of_nat mp else 0) <= mtu.
Definition SZ (e : Eng12) : Prop :=
  c_mtu (en_cfg e) = mtu /\ linked E e /\ cipher_suite_ok e /\
  Forall (fits12 mtu) (en_tx e) /\ Forall (entry_fits (en_minp e)) (en_saved e).
Definition fresh (e : Eng12) : Prop :=
  Forall (fun x : Entry12 => snd (fst x) = 0) (en_saved e) /\ k_ccipher (en_crypto e) = None /\ k_scipher (en_crypto e) = None.
Definition SZ1 (z : bool) (e : Eng12) : Prop := SZ e /\ (z = true -> fresh e).
Definition RZ (z : bool) (a b : Eng12) : Prop := SZ1 z a -> SZ1 z b.
Lemma RZ_po z : preorder (RZ z).
Proof. split; unfold RZ; auto. Qed.

Lemma payload_len s ct ep f frag : SZ s -> (ep <> 0 -> en_suite s <> None) -> payload_of E s ct ep f frag ->
  len frag = len f + overhead s ep.
Proof.
  intros (_ & L & C & _) Hs. unfold payload_of, overhead. destruct (N.eqb_spec ep 0) as [->|Hn]; [intros ->; change (1 <=? 0) with false; cbv iota; lia|].
  destruct (N.leb_spec 1 ep); [|lia]. intros (iv & ex & nonce & c & _ & Hx & _ & Hc & ->). rewrite len_app.
  specialize (Hs Hn). unfold linked in L. destruct (en_suite s) as [cs|] eqn:Hsu; [|contradiction]. destruct L as (i & Hi & L1 & L2).
  unfold cipher_seal in Hc. destruct (own_cipher s) as [[cs' k]|] eqn:Ho; [|discriminate].
  assert (cs' = cs). { unfold own_cipher in Ho. destruct C as [C1 C2]. destruct (en_client s); [apply C1 in Ho|apply C2 in Ho]; congruence. }
  subst cs'. pose proof (SL cs i _ _ _ _ _ Hi Hc) as K. 
  assert (X : length ex = s12_enl i).
  { rewrite <- L1. destruct Hx as [[-> ->]|[-> (t & ->)]]; [reflexivity|]. apply (RO t 8%nat). }
  unfold len. rewrite L2, K, X. lia.
Qed.

Lemma cri_sizes z ct ep save fn f s : SZ1 z s -> (z = true -> ep = 0) ->
  (ct = CT_HS -> 13 + len f + overhead s ep <= mtu) ->
  wp (create_record_inner E ct ep save fn f) (fun r s' =>
     SZ1 z s' /\ en_minp s' = en_minp s /\ en_suite s' = en_suite s /\ (save = false -> en_saved s' = en_saved s)) s.
Proof.
  intros [H Hz] Hep Hf. apply (wp_mono _ _ _ s (create_record_spec E ct ep save fn f s)).
  intros r s' (o & sv & K).
  destruct H as (H1 & H2 & H3 & H4 & H5).
  assert (S1 : forall sv, sv = en_saved s \/ save = true /\ sv = en_saved s ++ [(ct, ep, f)] ->
    Forall (entry_fits (en_minp s)) sv /\ (z = true -> Forall (fun x : Entry12 => snd (fst x) = 0) sv) /\ (save = false -> sv = en_saved s)).
  { intros sv' [-> | [-> ->]]; [split; [exact H5|split; [intro X; apply (Hz X)|auto]]|]. split; [|split; [|discriminate]].
    - apply Forall_app. split; [exact H5|]. constructor; [|constructor]. exact Hf.
    - intro X. apply Forall_app. split; [apply (Hz X)|]. constructor; [apply (Hep X)|constructor]. }
  assert (Fin : forall q tx2 (B : Eng12 -> Eng12),
     (B = (fun e => e) \/ B = bump ep) ->
     sv = q -> (q = en_saved s \/ save = true /\ q = en_saved s ++ [(ct, ep, f)]) -> Forall (fits12 mtu) tx2 ->
     SZ1 z (set_en_tx tx2 (B (set_en_orc o (set_en_saved sv s)))) /\
     en_minp (set_en_tx tx2 (B (set_en_orc o (set_en_saved sv s)))) = en_minp s /\
     en_suite (set_en_tx tx2 (B (set_en_orc o (set_en_saved sv s)))) = en_suite s /\
     (save = false -> en_saved (set_en_tx tx2 (B (set_en_orc o (set_en_saved sv s)))) = en_saved s)).
  { intros q tx2 B HB -> Hq HT. destruct (S1 _ Hq) as (A1 & A2 & A3).
    destruct HB as [-> | ->]; [|unfold bump; destruct (ep =? 0)];
      (split; [split; [split; [exact H1|split; [exact H2|split; [exact H3|split; [exact HT|exact A1]]]]|intro X; split; [apply A2, X|apply (Hz X)]]|split; [reflexivity|split; [reflexivity|exact A3]]]). }
  destruct r as [u|x|n].
  2:{ destruct K as (A & -> & _). replace (set_en_orc o (set_en_saved sv s)) with (set_en_tx (en_tx s) ((fun e => e) (set_en_orc o (set_en_saved sv s)))) by (destruct s; reflexivity). apply (Fin sv (en_tx s) (fun e => e)); [left; reflexivity|reflexivity|exact A|exact H4]. }
  2:{ destruct K as (A & -> & _). replace (set_en_orc o (set_en_saved sv s)) with (set_en_tx (en_tx s) ((fun e => e) (set_en_orc o (set_en_saved sv s)))) by (destruct s; reflexivity). apply (Fin sv (en_tx s) (fun e => e)); [left; reflexivity|reflexivity|exact A|exact H4]. }
  destruct K as (A & Hsu & frag & P & _ & ->).
  apply (Fin sv _ (bump ep)); [right; reflexivity|reflexivity|subst sv; destruct save; auto|].
  assert (PL : len frag = len f + overhead s ep).
  { eapply payload_len; [|exact Hsu|exact P]. repeat split; try assumption; apply H3. }
  set (w := (ct, if ep =? 0 then 0 else 1, cur_seq ep s, frag) : wire12).
  change (s_rec12 ct V_DTLS12 (if ep =? 0 then 0 else 1) (cur_seq ep s) frag) with (w_enc w).
  assert (WL : len (w_enc w) = 13 + len f + overhead s ep) by (unfold w, w_enc; rewrite len_s_rec12, PL; lia).
  assert (WT : w_type w = ct) by reflexivity. clearbody w.
  destruct (can_append _ _ _) eqn:Ha.
  - pose proof (can_append_nonnil _ _ _ Ha) as Hn. destruct (snoc_case _ Hn) as (q & b & Hq). unfold can_append in Ha.
    rewrite Hq in *. rewrite append_last_snoc. rewrite rev_app_distr in Ha. cbn [rev app] in Ha. apply Forall_app in H4. destruct H4 as [B1 B2]. apply Forall_app. split; [exact B1|].
    inversion B2 as [|? ? (ws & C1 & C2) _]; subst x l. constructor; [|constructor]. exists (ws ++ [w]).
    rewrite map_app, concat_app. cbn [map concat]. rewrite app_nil_r, <- C1. split; [reflexivity|]. left.
    apply andb_prop in Ha. destruct Ha as [_ Ha]. apply N.leb_le in Ha. rewrite len_app, WL, <- H1. exact Ha.
  - apply Forall_app. split; [exact H4|]. constructor; [|constructor]. exists [w].
    split; [cbn [map concat]; rewrite app_nil_r; reflexivity|].
    destruct (N.eq_dec ct CT_HS) as [Hc|Hc]; [left; rewrite WL; apply Hf, Hc|right; exists w; split; [reflexivity|congruence]].
Qed.
Lemma resend_sizes z rp : forall es fs s, SZ1 z s -> Forall (entry_fits (en_minp s)) es -> (z = true -> Forall (fun x : Entry12 => snd (fst x) = 0) es) ->
  SZ1 z (snd (resend_loop E rp fs es s)).
Proof.
  induction es as [|[[ct ep] f] es IH]; intros fs s H He Hz; cbn [resend_loop]; [exact H|].
  inversion He as [|? ? K He']; subst.
  pose proof (cri_sizes z ct ep false (rp && fs) f s H) as W. unfold wp in W. unfold bind.
  destruct (create_record_inner E ct ep false (rp && fs) f s) as [r s1]. cbn [fst snd] in W.
  destruct W as (W1 & W2 & _); [intro X; specialize (Hz X); inversion Hz; assumption|exact K|].
  destruct r; [|exact W1..]. apply IH; [exact W1|rewrite W2; exact He'|]. intro X. specialize (Hz X). inversion Hz; assumption.
Qed.
Lemma sz_resend z : pres (RZ z) (flight_resend E).
Proof.
  intros s [H Hz]. unfold flight_resend, bind, get. pose proof H as (H1 & H2 & H3 & H4 & H5).
  destruct (negb (en_release s)); cbn [when]; unfold modify, ret; apply resend_sizes; try exact H5.
  - split; [|exact Hz]. split; [exact H1|split; [exact H2|split; [exact H3|split; [constructor|exact H5]]]].
  - intro X. apply (Hz X).
  - split; assumption.
  - intro X. apply (Hz X).
Qed.
Lemma sz_tx z l s : Forall (fits12 mtu) l -> SZ1 z s -> SZ1 z (set_en_tx l s).
Proof. intros L [H Hz]. split; [|exact Hz]. destruct H as (H1 & H2 & H3 & H4 & H5). split; [exact H1|split; [exact H2|split; [exact H3|split; [exact L|exact H5]]]]. Qed.
Lemma sz_nosaved z s : SZ1 z s -> SZ1 z (set_en_saved [] s).
Proof. intros [H Hz]. destruct H as (H1 & H2 & H3 & H4 & H5). split; [split; [exact H1|split; [exact H2|split; [exact H3|split; [exact H4|constructor]]]]|]. intro X. split; [constructor|apply (Hz X)]. Qed.
Lemma sz_flight_begin z : pres (RZ z) (flight_begin E).
Proof. intros s H. apply (sz_nosaved z (set_en_flight Unarmed (set_en_bo (backoff_reset (en_bo s) (e_jitter E (en_orc s))) (set_en_orc (en_orc s + 1) s)))). exact H. Qed.
Lemma sz_frag z : forall fuel mt total seq ep prot off rest s, SZ1 z s -> (z = true -> ep = 0) ->
  prot = overhead s ep -> 25 + prot <= mtu -> SZ1 z (snd (frag_loop E fuel mt total seq ep prot off rest s)).
Proof.
  induction fuel as [|fuel IH]; intros mt total seq ep prot off rest s H Hz Hp Hm; destruct rest as [|b rest]; cbn [frag_loop]; try exact H.
  remember (b :: rest) as rs eqn:Ers. clear Ers b rest. unfold bind at 1, get at 1. cbv zeta.
  set (used := match rev (en_tx s) with [] => 0 | b :: _ => len b end). clearbody used.
  pose proof H as [(H1 & _) _]. rewrite H1.
  set (av := if 13 + 12 + prot <? mtu - used then mtu - used - (13 + 12 + prot) else mtu - (13 + 12 + prot)).
  assert (Hav : 25 + prot + av <= mtu) by (unfold av; destruct (N.ltb_spec (13 + 12 + prot) (mtu - used)); lia). clearbody av.
  set (chunk := N.min (len rs) av). assert (Hch : chunk <= av) by (unfold chunk; lia).
  assert (Hcr : chunk <= len rs) by (unfold chunk; lia). clearbody chunk.
  set (f := s_hs_header mt total seq off chunk ++ firstn (N.to_nat chunk) rs).
  assert (Hf : len f = 12 + chunk).
  { unfold f. rewrite len_app. unfold s_hs_header. rewrite !len_app, !len_be. unfold len. rewrite firstn_length. unfold len in Hcr. lia. }
  clearbody f. unfold create_record. unfold bind.
  pose proof (cri_sizes z CT_HS ep true false f s H) as W. unfold wp in W.
  destruct (create_record_inner E CT_HS ep true false f s) as [r s1]. cbn [fst snd] in W.
  destruct W as (W1 & W2 & W3 & _); [exact Hz|intros _; rewrite <- Hp; lia|].
  destruct r; [|exact W1..]. apply IH; [exact W1|exact Hz| |exact Hm]. rewrite Hp. unfold overhead. rewrite W2. reflexivity.
Qed.
Lemma sz_create z mt mk : (z = true -> mt12_epoch mt = 0) -> pres (RZ z) mk -> pres (RZ z) (create_handshake E mt mk).
Proof.
  intros Hz Hmk. unfold create_handshake. apply (pres_bind _ (RZ_po z)); [exact Hmk|]. intros body.
  intros s H. unfold bind at 1, get at 1. cbv zeta. unfold bind at 1, modify at 1. unfold bind at 1, modify at 1.
  set (s1 := set_en_next_hs _ _). assert (H1 : SZ1 z s1) by exact H.
  assert (Eq : en_suite s1 = en_suite s /\ en_minp s1 = en_minp s /\ en_cfg s1 = en_cfg s) by (repeat split). clearbody s1. destruct Eq as (E1 & E2 & E3).
  set (ep := mt12_epoch mt) in *. clearbody ep.
  unfold bind at 1. 
  assert (P : forall (x : res N * Eng12), x = (if 1 <=? ep then match en_suite s with Some _ => ret (N.of_nat (en_minp s)) | None => fail EInvalidState end else ret 0) s1 ->
     snd x = s1 /\ match fst x with Ok prot => prot = overhead s1 ep /\ 25 + prot <= mtu | _ => True end).
  { intros x ->. unfold overhead. rewrite E2. destruct (1 <=? ep); [|split; [reflexivity|cbn; split; [reflexivity|lia]]].
    destruct (en_suite s) as [cs|] eqn:Hs; [|split; [reflexivity|exact I]]. split; [reflexivity|]. cbn [fst ret]. split; [reflexivity|].
    destruct H as [(_ & L & _) _]. unfold linked in L. rewrite Hs in L. destruct L as (i & Hi & _ & ->). specialize (ROOM _ _ Hi). lia. }
  specialize (P _ eq_refl).
  destruct ((if 1 <=? ep then match en_suite s with Some _ => ret (N.of_nat (en_minp s)) | None => fail EInvalidState end else ret 0) s1) as [r s2].
  cbn [fst snd] in P. destruct P as [-> P]. destruct r as [prot|x|n]; [|exact H1..]. destruct P as [P1 P2].
  destruct body as [|b body].
  - unfold create_record. pose proof (cri_sizes z CT_HS ep true false (s_hs_header mt (u32 (len ([] : bytes))) (en_next_hs s) 0 0) s1 H1 Hz) as W. unfold wp in W. apply W.
    intros _. unfold s_hs_header. rewrite !len_app, !len_be, <- P1. lia.
  - apply sz_frag; assumption.
Qed.
Ltac szpre := first [apply RZ_po | intros; intro; assumption | apply sz_resend].
Lemma sz_io z : io_frame E (RZ z).
Proof.
  constructor.
  - intros v s H. exact H.
  - intros v s H. exact H.
  - apply pres_modify. intros s H. apply (sz_nosaved z) in H. apply (sz_tx z []) in H; [exact H|constructor].
  - intros p. apply fr3_parse_packet; szpre.
  - intros cap now s [H Hz]. pose proof (v_poll cap now s) as V. pose proof (wire_poll_tx cap now s) as K. cbv zeta in K. destruct K as (K1 & K2 & K3 & K4).
    assert (X : pres same_keys12 (eng12_poll_output cap now)) by (apply fr_poll_output; first [exact sk_po | intros; repeat split; reflexivity]).
    pose proof (X s) as SK. destruct SK as (SK1 & SK2 & SK3 & SK4 & SK5).
    destruct H as (H1 & H2 & H3 & H4 & H5). split; [split; [congruence|split; [|split; [|split]]]|].
    + unfold linked. rewrite SK2, SK3, SK4. exact H2.
    + unfold cipher_suite_ok. rewrite SK1, SK2. exact H3.
    + destruct K1 as [K1|(p & K1)]; [rewrite K1; exact H4|]. rewrite K1 in H4. inversion H4; assumption.
    + rewrite K2, K4. exact H5.
    + intro Y. unfold fresh. rewrite K2, SK1. apply (Hz Y).
  - intros now. apply fr3_handle_timeout; szpre.
Qed.
Lemma sz_ns : ns_frame E (RZ false).
Proof.
  constructor; try (solve [szpre]).
  - intros v s [S1 S2] [(H1 & H2 & [H3 H3'] & H4) Hz]. split; [|discriminate]. split; [exact H1|split; [exact H2|split; [|exact H4]]].
    split; intros cs k; cbn; [rewrite S1; apply H3|rewrite S2; apply H3'].
  - intros cs cr sr s Hs [(H1 & H2 & [H3 H3'] & H4) _]. split; [|discriminate].
    unfold crypto_op. destruct (derive_keys E cs cr sr (en_crypto s)) as [b k] eqn:Hd. cbn [snd].
    split; [exact H1|split; [exact H2|split; [|exact H4]]].
    revert Hd. unfold derive_keys. destruct (k_ms (en_crypto s)); [|intros [= <- <-]; split; assumption].
    destruct (find12 E cs); [|intros [= <- <-]; split; assumption]. destruct (prf_tls12 _ _ _ _ _ _); [|intros [= <- <-]; split; assumption].
    destruct (e_mkcipher E cs _); [destruct (e_mkcipher E cs _)|]; intros [= <- <-]; split; intros c k0; cbn; try (intros [= <- <-]; exact Hs); first [apply H3|apply H3'].
  - apply sz_flight_begin.
  - intros ct ep save f Hct s H. unfold create_record. apply (cri_sizes false ct ep save false f s H); [discriminate|congruence].
  - intros mt mk. apply sz_create. discriminate.
  - intros w. apply fr_next_handshake; szpre.
  - intros w. apply fr_next_record; szpre.
  - apply fr_drop_ccs; szpre.
  - apply fr3_enable_peer; szpre.
  - apply fr_flight_stop; szpre.
  - apply fr_release; szpre.
  - apply pres_modify. intros s H. apply sz_tx; [|exact H]. constructor.
Qed.
Lemma sz_suite cs : pres (RZ true) (set_cipher_suite E cs).
Proof.
  unfold set_cipher_suite. destruct (find12 E cs) as [i|] eqn:Hi; [|apply (pres_panic _ (RZ_po true))]. apply pres_modify.
  intros s [(H1 & H2 & H3 & H4 & H5) Hz]. specialize (Hz eq_refl). destruct Hz as (F1 & F2 & F3).
  split; [split; [exact H1|split; [|split; [|split; [exact H4|]]]]|intros _; split; [exact F1|split; assumption]].
  - unfold linked. cbn. exists i. auto.
  - unfold cipher_suite_ok. cbn. rewrite F2, F3. split; discriminate.
  - cbn. clear -F1 H5. induction H5 as [|[[ct ep] f] l K H5 IH]; [constructor|]. inversion F1 as [|? ? A B]; subst. constructor; [|apply IH, B].
    cbn in A. subst ep. exact K.
Qed.
Lemma sz_await : pres (History12Facts.RS (RZ true)) (s_await_client_hello E).
Proof.
  pose proof (RZ_po true) as PO. assert (POS : preorder (History12Facts.RS (RZ true))) by (split; unfold History12Facts.RS, RZ; auto).
  unfold s_await_client_hello.
  presauto POS ltac:(first
    [ apply (lf_seng (RZ true)); first [apply fr_next_handshake; szpre | apply sz_flight_begin
        | apply sz_create; [reflexivity|]; apply pres_ret, PO | apply fr_reset_server; szpre | apply sz_suite ]
    | apply pres_modify; intros ? K; exact K ]).
Qed.
Lemma sz_early st : c_rank st <= 2 -> pres (History12Facts.RC (RZ true)) (c_step E st).
Proof.
  pose proof (RZ_po true) as PO. assert (POC : preorder (History12Facts.RC (RZ true))) by (split; unfold History12Facts.RC, RZ; auto).
  assert (X : forall l b, pres (History12Facts.RC (RZ true)) (sh12_extensions b l)).
  { induction l as [|[t d] l IH]; intros b; cbn [sh12_extensions]; presauto POC ltac:(first [apply IH | apply pres_modify; intros ? K; exact K]). }
  intros H. destruct st; cbn [c_rank] in H; try lia; cbn [c_step];
    unfold c_send_client_hello, c_await_hello_verify_request, c_await_server_hello;
  presauto POC ltac:(first
    [ apply (lf_ceng (RZ true)); first [apply fr_next_handshake; szpre | apply sz_flight_begin
        | apply sz_create; [reflexivity|]; unfold create_client_hello; presauto PO ltac:(idtac) | apply fr_reset_client; szpre | apply sz_suite ]
    | apply X | apply pres_modify; intros ? K; exact K ]).
Qed.
End Mtu12.
