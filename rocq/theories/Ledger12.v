(** Which records a DTLS 1.2 endpoint produces: application data and alerts against
    the calls of the application. *)
From Verif Require Import Prelude PreludeFacts Types Codec Codec12 Record12 Monad MonadFacts Timer Env
  Config Aead Prf Window Context12 Engine12 Client12 Server12 Engine12Frame Send12Proofs History12
  History12Facts EndFrame12 Queue12Proofs View12 Poll12Proofs Timer12Proofs Tx12Proofs
  ClientInv12 ClientStep12 ServerInv12 ServerStep12 Events12.

(** ** Frames for what the handshake does *)

Definition hst (ct : N) : Prop := ct = CT_HS \/ ct = CT_CCS.

(** Like [step_frame] for the states before the connection is established: only
    handshake messages and ChangeCipherSpec are sent. *)
Record hs_frame (E : Env) (R : Eng12 -> Eng12 -> Prop) : Prop := {
  hf_po : preorder R;
  hf_crypto : forall v s, R s (set_en_crypto v s);
  hf_orc : forall v s, R s (set_en_orc v s);
  hf_flight_begin : pres R (flight_begin E);
  hf_create_record : forall ct ep save f, hst ct -> pres R (create_record E ct ep save f);
  hf_create_handshake : forall mt mk, pres R mk -> pres R (create_handshake E mt mk);
  hf_next_handshake : forall w, pres R (next_handshake w);
  hf_next_record : forall w, pres R (next_record w);
  hf_drop_ccs : pres R drop_pending_ccs;
  hf_reset_server : pres R reset_server_for_hvr;
  hf_reset_client : pres R reset_client_for_hvr;
  hf_set_suite : forall cs, pres R (set_cipher_suite E cs);
  hf_enable_peer : pres R (enable_peer_encryption E);
  hf_flight_stop : pres R flight_stop_resend_timers;
  hf_release : pres R release_application_data;
  hf_parse : forall p, pres R (eng12_parse_packet E p);
  hf_timeout : forall now, pres R (eng12_handle_timeout E now) }.

Section HsLift.
Variable E : Env.
Variable R : Eng12 -> Eng12 -> Prop.
Hypothesis F : hs_frame E R.
Let PO : preorder R := hf_po _ _ F.

Lemma hl_draw : pres R draw.
Proof. apply fr_draw; [exact PO|apply F]. Qed.
Lemma hl_rand n : pres R (rand_bytes E n).
Proof. apply fr_rand_bytes; [exact PO|apply F]. Qed.
Lemma hl_random_time n : pres R (random_with_time E n).
Proof. apply fr_random_with_time; [exact PO|apply F]. Qed.
Lemma hl_crypto_op f : pres R (crypto_op f).
Proof. apply fr_crypto_op; [exact PO|apply F]. Qed.
Lemma hl_gvd b : pres R (generate_verify_data E b).
Proof. apply fr_gvd; exact PO. Qed.

Ltac engleaf :=
  first [apply (hf_flight_begin _ _ F) | apply (hf_create_record _ _ F); solve [left; reflexivity|right; reflexivity]
        | apply (hf_create_handshake _ _ F) | apply (hf_next_handshake _ _ F)
        | apply (hf_next_record _ _ F) | apply (hf_drop_ccs _ _ F) | apply (hf_reset_server _ _ F)
        | apply (hf_reset_client _ _ F) | apply (hf_set_suite _ _ F) | apply (hf_enable_peer _ _ F)
        | apply (hf_flight_stop _ _ F) | apply (hf_release _ _ F) 
        | apply hl_draw | apply hl_rand | apply hl_random_time
        | apply hl_crypto_op | apply hl_gvd
        | apply pres_modify; intro; apply (hf_crypto _ _ F)
        | apply pres_modify; intro; apply (hf_orc _ _ F) ].

Lemma hl_create_certificate : pres R create_certificate12.
Proof. unfold create_certificate12. presauto PO engleaf. Qed.
Lemma hl_create_ch a b c : pres R (create_client_hello E a b c).
Proof. unfold create_client_hello. presauto PO engleaf. Qed.
Lemma hl_create_cke : pres R create_client_key_exchange.
Proof. unfold create_client_key_exchange. presauto PO engleaf. Qed.
Lemma hl_create_cv : pres R (create_certificate_verify E).
Proof. unfold create_certificate_verify. presauto PO engleaf. Qed.
Lemma hl_create_sh a b : pres R (create_server_hello a b).
Proof. unfold create_server_hello. presauto PO engleaf. Qed.
Lemma hl_create_ske a b c d : pres R (create_server_key_exchange E a b c d).
Proof. unfold create_server_key_exchange. presauto PO engleaf. Qed.

Ltac mkleaf :=
  first [engleaf | apply hl_create_certificate | apply hl_create_ch | apply hl_create_cke
        | apply hl_create_cv | apply hl_create_sh | apply hl_create_ske ].

(** Client *)
Notation RC := (RC R).
Lemma HC_po : preorder RC.
Proof. split; unfold RC; intros; [apply PO|eapply PO; eauto]. Qed.
Lemma hl_ceng {A} (m : M Eng12 A) : pres R m -> pres RC (ceng m).
Proof. apply pres_zoom. auto. Qed.

Ltac cleaf :=
  first [ assumption
        | apply hl_ceng; solve [presauto PO mkleaf]
        | apply pres_modify; intro; unfold RC; cbn; apply PO ].

Lemma hl_sh12_extensions es : forall b, pres RC (sh12_extensions b es).
Proof.
  induction es as [|[t d] es IH]; intro b; cbn [sh12_extensions]; presauto HC_po ltac:(first [apply IH|cleaf]).
Qed.

Lemma hl_ske_ecdhe : pres RC (c_await_server_key_exchange_ecdhe E).
Proof. unfold c_await_server_key_exchange_ecdhe. presauto HC_po cleaf. Qed.
Lemma hl_ske_psk : pres RC c_await_server_key_exchange_psk.
Proof. unfold c_await_server_key_exchange_psk. presauto HC_po cleaf. Qed.

Lemma hl_c_step st : c_rank st <> 15 -> pres RC (c_step E st).
Proof.
  intro Hst. destruct st; try (exfalso; apply Hst; reflexivity); clear Hst; cbn [c_step];
    unfold c_send_client_hello, c_await_hello_verify_request, c_await_server_hello,
      c_await_certificate, c_await_server_key_exchange, c_await_certificate_request,
      c_await_server_hello_done, c_send_certificate, c_send_client_key_exchange,
      c_send_certificate_verify, c_send_change_cipher_spec, c_derive_keys, c_send_finished,
      c_await_change_cipher_spec, c_await_new_session_ticket, c_await_finished,
      c_derive_keys;
    presauto HC_po ltac:(first [apply hl_sh12_extensions | apply hl_ske_ecdhe | apply hl_ske_psk | cleaf]).
Qed.

(** Server *)
Notation RS := (RS R).
Lemma HS_po : preorder RS.
Proof. split; unfold RS; intros; [apply PO|eapply PO; eauto]. Qed.
Lemma hl_seng {A} (m : M Eng12 A) : pres R m -> pres RS (seng m).
Proof. apply pres_zoom. auto. Qed.

Ltac sleaf :=
  first [ assumption
        | apply hl_seng; solve [presauto PO mkleaf]
        | apply pres_modify; intro; unfold RS; cbn; apply PO ].

Lemma hl_s_cke cs k : pres RS (s_process_cke E cs k).
Proof. unfold s_process_cke. presauto HS_po sleaf. Qed.
Lemma hl_s_ske_psk : pres RS (s_send_server_key_exchange_psk E).
Proof. unfold s_send_server_key_exchange_psk. presauto HS_po sleaf. Qed.

Lemma hl_s_step st : s_rank st <> 13 -> pres RS (s_step E st).
Proof.
  intro Hst. destruct st; try (exfalso; apply Hst; reflexivity); clear Hst; cbn [s_step];
    unfold s_await_client_hello, s_send_server_hello, s_send_certificate,
      s_send_server_key_exchange, s_send_certificate_request, s_send_server_hello_done,
      s_await_certificate, s_await_client_key_exchange, s_await_certificate_verify,
      s_await_change_cipher_spec, s_await_finished, s_send_change_cipher_spec, s_send_finished,
      s_send_finished;
    presauto HS_po ltac:(first [apply hl_s_cke | apply hl_s_ske_psk | sleaf]).
Qed.

End HsLift.

(** From a proof for [create_record_inner] and one for [flight_resend]. *)
Section Frame3.
Variable E : Env.
Variable R : Eng12 -> Eng12 -> Prop.
Hypothesis PO : preorder R.
Let R_trans := po_trans R PO.
Hypothesis H_cri : forall ct ep save fn f, hst ct -> pres R (create_record_inner E ct ep save fn f).
Hypothesis H_resend : pres R (flight_resend E).
Hypothesis R_rx : forall v s, R s (set_en_rx v s).
Hypothesis R_penc : forall v s, R s (set_en_penc v s).
Hypothesis R_next_hs : forall v s, R s (set_en_next_hs v s).
Hypothesis R_transcript : forall v s, R s (set_en_transcript v s).
Hypothesis R_replay : forall v s, R s (set_en_replay v s).
Hypothesis R_bo : forall v s, R s (set_en_bo v s).
Hypothesis R_flight : forall v s, R s (set_en_flight v s).
Hypothesis R_connect : forall v s, R s (set_en_connect v s).
Hypothesis R_confirmed : forall s, R s (set_en_confirmed true s).
Hypothesis R_cn_recv : forall s, R s (set_en_cn_recv true s).
Hypothesis R_orc : forall v s, R s (set_en_orc v s).

Ltac hcri := apply H_cri; solve [left; reflexivity|right; reflexivity].

Lemma fr3_frag_loop fuel mt total seq ep prot : forall off rest,
  pres R (frag_loop E fuel mt total seq ep prot off rest).
Proof using PO H_cri.
  induction fuel as [|fuel IH]; intros off rest; cbn [frag_loop]; unfold create_record;
    presauto PO ltac:(first [hcri | leaf]).
Qed.
Lemma fr3_create_handshake mt mk : pres R mk -> pres R (create_handshake E mt mk).
Proof using PO H_cri R_transcript R_next_hs.
  intros H. unfold create_handshake, create_record.
  presauto PO ltac:(first [hcri | apply fr3_frag_loop | leaf]).
Qed.
Lemma fr3_handle_timeout now : pres R (eng12_handle_timeout E now).
Proof using PO H_resend R_orc R_connect R_flight R_bo.
  unfold eng12_handle_timeout.
  presauto PO ltac:(first [apply (fr_draw _ PO R_orc) | apply H_resend | leaf]).
Qed.
Lemma fr3_insert_hs inc r h : pres R (insert_incoming_handshake E inc r h).
Proof using PO H_resend R_orc R_rx.
  unfold insert_incoming_handshake.
  presauto PO ltac:(first [apply H_resend | apply (fr_bsearch _ _ PO R_orc) | leaf]).
Qed.
Lemma fr3_insert inc : pres R (insert_incoming E inc).
Proof using PO H_resend R_orc R_rx.
  unfold insert_incoming.
  presauto PO ltac:(first [apply fr3_insert_hs | apply (fr_insert_non_hs _ _ PO R_rx R_orc) | leaf]).
Qed.
Lemma fr3_parse_packet p : pres R (eng12_parse_packet E p).
Proof using PO H_resend R_orc R_rx R_replay R_confirmed R_cn_recv.
  unfold eng12_parse_packet.
  presauto PO ltac:(first [apply fr3_insert
    | apply (fr_records_parse _ _ PO R_replay R_confirmed R_cn_recv) | leaf]).
Qed.
Lemma fr3_enable_peer : pres R (enable_peer_encryption E).
Proof using PO H_resend R_orc R_rx R_replay R_confirmed R_cn_recv R_penc.
  unfold enable_peer_encryption.
  presauto PO ltac:(first [apply fr3_parse_packet | leaf]).
Qed.
End Frame3.

(** ** The books *)

(** Type, epoch and plaintext of a record. *)
Definition Key : Type := N * N * bytes.
Definition key (r : SRec) : Key := (sr_type r, sr_epoch r, sr_plain r).
Definition key_type (k : Key) : N := fst (fst k).
Definition of_type (t : N) (k : Key) : bool := key_type k =? t.
(** Application data and alerts: what the application's calls produce. *)
Definition user_key (k : Key) : bool := of_type CT_APP k || of_type CT_ALERT k.

(** What is on the wire is the plaintext (epoch 0) or its protection under a key of
    the provider, with the record's type, epoch, number and length authenticated. *)
Definition wire_ok (E : Env) (r : SRec) : Prop :=
  if sr_epoch r =? 0 then sr_wire r = sr_plain r
  else exists suite k nonce explicit c,
    e_seal E suite k nonce (aad12 (sr_type r) 1 (sr_seq r) (u16 (len (sr_plain r)))) (sr_plain r) = Some c /\
    sr_wire r = explicit ++ c.

(** [L]: the application data and alert records among the datagrams [em] handed
    out and the send queue, in order. *)
Definition books (E : Env) (em : list bytes) (L : list Key) (e : Eng12) : Prop :=
  Forall (fun k => hst (key_type k)) (en_saved e) /\ (en_release e = false -> L = []) /\
  exists rss, map (flat_map encode) rss = em ++ en_tx e /\ filter user_key (map key (concat rss)) = L /\
    Forall (wire_ok E) (concat rss).

Lemma hst_user k : hst (key_type k) -> user_key k = false.
Proof. unfold user_key, of_type. intros [->| ->]; reflexivity. Qed.

Lemma snoc_rec em e rss b r : map (flat_map encode) rss = em ++ en_tx e -> (b = true -> en_tx e <> []) ->
  exists rss', map (flat_map encode) rss' = em ++ (if b then append_last (encode r) (en_tx e) else en_tx e ++ [encode r]) /\
    concat rss' = concat rss ++ [r].
Proof.
  intros H1 Hb. destruct b.
  - destruct (snoc_case _ (Hb eq_refl)) as (q & b & Hq). rewrite Hq in *. rewrite append_last_snoc.
    rewrite app_assoc in H1. apply map_eq_snoc in H1. destruct H1 as (l' & a & -> & K1 & K2).
    exists (l' ++ [a ++ [r]]). rewrite map_app, app_assoc, K1. cbn [map]. rewrite flat_map_app, K2. cbn [flat_map]. rewrite app_nil_r.
    split; [reflexivity|]. rewrite !concat_app. cbn [concat]. rewrite !app_nil_r, app_assoc. reflexivity.
  - exists (rss ++ [[r]]). rewrite map_app, H1, app_assoc. cbn [map flat_map]. rewrite app_nil_r. split; [reflexivity|].
    rewrite concat_app. cbn [concat]. rewrite app_nil_r. reflexivity.
Qed.

Lemma wp_run' {S A} (m : M S A) (Q : S -> Prop) s : wp m (fun _ s' => Q s') s -> Q (snd (m s)).
Proof. unfold wp. destruct (m s). auto. Qed.

Section Books.
Variable E : Env.
Variable em : list bytes.

(** A record of any type is produced. *)
Lemma books_cri ct ep save fn f L s : books E em L s -> (save = true -> hst ct) ->
  (user_key (ct, if ep =? 0 then 0 else 1, f) = true -> en_release s = true) ->
  wp (create_record_inner E ct ep save fn f) (fun r s' =>
    en_cn_recv s' = en_cn_recv s /\ en_release s' = en_release s /\
    match r with
    | Ok _ => books E em (L ++ if user_key (ct, if ep =? 0 then 0 else 1, f) then [(ct, if ep =? 0 then 0 else 1, f)] else []) s'
    | _ => books E em L s'
    end) s.
Proof.
  intros (B1 & B2 & rss & B3 & B4 & B5) HS HU. eapply wp_mono; [apply create_record_spec|]. cbv beta.
  intros r s' (o & sv & H). cbv zeta in H.
  assert (SV : (sv = en_saved s \/ save = true /\ sv = en_saved s ++ [(ct, ep, f)]) -> Forall (fun k => hst (key_type k)) sv).
  { intros [->|[K ->]]; [exact B1|]. apply Forall_app. split; [exact B1|]. constructor; [apply HS, K|constructor]. }
  destruct r as [u|x|x].
  2,3: destruct H as (Hs & -> & _); split; [reflexivity|]; split; [reflexivity|]; split; [apply SV, Hs|]; split; [exact B2|]; exists rss; auto.
  destruct H as (Hs & _ & frag & HP & Hq & ->).
  pose (r := mkSRec ct (if ep =? 0 then 0 else 1) (cur_seq ep s) f frag).
  change (s_rec12 ct V_DTLS12 (if ep =? 0 then 0 else 1) (cur_seq ep s) frag) with (encode r).
  assert (X : forall q, en_cn_recv (set_en_tx q (bump ep (set_en_orc o (set_en_saved sv s)))) = en_cn_recv s /\
     en_release (set_en_tx q (bump ep (set_en_orc o (set_en_saved sv s)))) = en_release s /\
     en_saved (set_en_tx q (bump ep (set_en_orc o (set_en_saved sv s)))) = sv /\
     en_tx (set_en_tx q (bump ep (set_en_orc o (set_en_saved sv s)))) = q).
  { intro q. unfold bump. destruct (ep =? 0); repeat split; reflexivity. }
  match goal with |- context [set_en_tx ?q _] => specialize (X q); destruct X as (X1 & X2 & X3 & X4) end.
  split; [exact X1|]. split; [exact X2|]. unfold books. rewrite X2, X3, X4. split; [|split].
  - apply SV. destruct save; auto.
  - intro K. destruct (user_key _); [specialize (HU eq_refl); congruence|]. rewrite (B2 K). reflexivity.
  - destruct (snoc_rec em s rss (can_append s fn (13 + len f + overhead s ep)) r B3) as (rss' & Q1 & Q2).
    { apply can_append_nonnil. }
    exists rss'. split; [exact Q1|]. rewrite Q2. split; [rewrite map_app, filter_app, B4; f_equal|].
    apply Forall_app. split; [exact B5|]. constructor; [|constructor]. revert HP. unfold payload_of, wire_ok. cbn [sr_epoch sr_wire sr_plain sr_type sr_seq r].
    destruct (ep =? 0) eqn:Hep; [auto|]. intros (iv & ex & nonce & c & _ & _ & _ & K4 & K5). cbn [N.eqb].
    unfold cipher_seal in K4. destruct (own_cipher s) as [[su k]|]; [|discriminate]. exists su, k, nonce, ex, c.
    unfold cur_seq. rewrite Hep. auto.
Qed.

Definition RB L (a b : Eng12) : Prop :=
  books E em L a -> books E em L b /\ (en_cn_recv a = true -> en_cn_recv b = true).
Lemma RB_po L : preorder (RB L).
Proof.
  split; [intros a H; auto|]. intros a b c H1 H2 H. destruct (H1 H) as [K1 K2]. destruct (H2 K1) as [K3 K4]. auto.
Qed.
Lemma RB_cri L ct ep save fn f : hst ct -> pres (RB L) (create_record_inner E ct ep save fn f).
Proof.
  intros H s B. assert (U : user_key (ct, if ep =? 0 then 0 else 1, f) = false) by (apply hst_user, H).
  apply (wp_run' _ (fun s' => books E em L s' /\ (en_cn_recv s = true -> en_cn_recv s' = true)) s).
  eapply wp_mono; [apply (books_cri ct ep save fn f L s B); [auto|intro K; rewrite U in K; discriminate]|].
  rewrite U, app_nil_r. cbv beta. intros r s' (K1 & _ & K2). split; [|congruence].
  destruct r; exact K2.
Qed.
Lemma books_drop L s : books E em L s -> exists L1 L2, L = L1 ++ L2 /\ books E em L1 (set_en_tx [] s).
Proof.
  intros (B1 & B2 & rss & B3 & B4 & B5). apply map_eq_app in B3. destruct B3 as (l1 & l2 & -> & K1 & K2).
  rewrite concat_app, map_app, filter_app in B4. rewrite concat_app in B5. apply Forall_app in B5.
  exists (filter user_key (map key (concat l1))), (filter user_key (map key (concat l2))).
  split; [auto|]. split; [exact B1|]. split.
  - intro H. apply B2 in H. rewrite H in B4. apply app_eq_nil in B4. apply B4.
  - exists l1. ecbn. rewrite app_nil_r. split; [exact K1|]. split; [reflexivity|apply B5].
Qed.
Lemma RB_resend_loop L ks : Forall (fun k => hst (key_type k)) ks -> forall rp fi, pres (RB L) (resend_loop E rp fi ks).
Proof.
  induction ks as [|[[ct ep] f] ks IH]; intros F rp fi; cbn [resend_loop]; [apply pres_ret, RB_po|].
  inversion F; subst. apply (pres_bind _ (RB_po L)); [apply RB_cri; assumption|]. intros _. apply IH; assumption.
Qed.
Lemma RB_resend L : pres (RB L) (flight_resend E).
Proof.
  intros s B. unfold flight_resend. apply (wp_run' _ (fun s' => books E em L s' /\ (en_cn_recv s = true -> en_cn_recv s' = true)) s).
  apply wp_bind, wp_get, wp_bind.
  destruct (en_release s) eqn:Hr; cbn [negb when].
  - apply wp_ret. eapply wp_mono; [apply (wp_pres (RB L)), RB_resend_loop, B|]. cbv beta. intros r s' H. apply H, B.
  - apply wp_modify. destruct (books_drop L s B) as (L1 & L2 & HL & B').
    assert (H : L = []) by (apply B, Hr). rewrite H in *. symmetry in HL. apply app_eq_nil in HL. destruct HL as [-> ->].
    eapply wp_mono; [apply (wp_pres (RB [])), RB_resend_loop, B|]. cbv beta. intros r s2 H2. apply H2, B'.
Qed.

Lemma RB_frame L : hs_frame E (RB L).
Proof.
  assert (PO := RB_po L). assert (C := fun ct ep save fn f => RB_cri L ct ep save fn f). assert (RS := RB_resend L).
  assert (G : forall f, (forall s, en_saved (f s) = en_saved s \/ en_saved (f s) = []) -> (forall s, en_release (f s) = en_release s \/ en_release (f s) = true) ->
    (forall s, en_tx (f s) = en_tx s) -> (forall s, en_cn_recv (f s) = en_cn_recv s \/ en_cn_recv (f s) = true) -> forall s, RB L s (f s)).
  { intros f H1 H2 H3 H4 s (B1 & B2 & rss & B3 & B4 & B5). split; [split; [|split]|].
    - destruct (H1 s) as [-> | ->]; [exact B1|constructor].
    - destruct (H2 s) as [-> | ->]; [exact B2|discriminate].
    - exists rss. rewrite H3. auto.
    - destruct (H4 s) as [-> | ->]; auto. }
  constructor.
  all: try exact PO.
  all: try (intros; apply G; ecbn; auto; fail).
  all: try (intros; apply C; assumption).
  all: first
    [ intros; apply fr3_create_handshake; first [exact PO|assumption|intros; apply G; ecbn; solve [auto]]
    | intros; apply fr3_parse_packet; first [exact PO|assumption|intros; apply G; ecbn; solve [auto]]
    | intros; apply fr3_handle_timeout; first [exact PO|assumption|intros; apply G; ecbn; solve [auto]]
    | intros; apply fr3_enable_peer; first [exact PO|assumption|intros; apply G; ecbn; solve [auto]]
    | intros; apply fr_next_handshake; first [exact PO|intros; apply G; ecbn; solve [auto]]
    | intros; apply fr_next_record; first [exact PO|intros; apply G; ecbn; solve [auto]]
    | intros; apply fr_drop_ccs; first [exact PO|intros; apply G; ecbn; solve [auto]]
    | intros; apply fr_reset_server; first [exact PO|intros; apply G; ecbn; solve [auto]]
    | intros; apply fr_reset_client; first [exact PO|intros; apply G; ecbn; solve [auto]]
    | intros; apply fr_set_suite; first [exact PO|intros; apply G; ecbn; solve [auto]]
    | idtac ].
  - unfold flight_begin. apply (pres_bind _ PO); [apply (fr_draw _ PO); intros; apply G; ecbn; auto|].
    intro. apply pres_modify. apply G; intro; ecbn; auto.
  - intro cs. unfold set_cipher_suite. destruct (find12 E cs); [|apply (pres_panic _ PO)]. apply pres_modify. apply G; intro; ecbn; auto.
  - unfold flight_stop_resend_timers. apply (pres_bind _ PO); [apply pres_modify; apply G; intro; ecbn; auto|].
    intro. apply (pres_bind _ PO); [apply (pres_get _ PO)|]. intro x. apply (pres_when _ PO). apply pres_modify. apply G; intro; ecbn; auto.
  - apply pres_modify. apply G; intro; ecbn; auto.
Qed.
End Books.

(** ** Order-preserving selections *)

Inductive sub {A} : list A -> list A -> Prop :=
| sub_nil : sub [] []
| sub_skip x a b : sub a b -> sub a (x :: b)
| sub_take x a b : sub a b -> sub (x :: a) (x :: b).
Lemma sub_refl {A} (l : list A) : sub l l.
Proof. induction l; constructor; assumption. Qed.
Lemma sub_nil_l {A} (l : list A) : sub [] l.
Proof. induction l; constructor; assumption. Qed.
Lemma sub_app {A} (a b c d : list A) : sub a b -> sub c d -> sub (a ++ c) (b ++ d).
Proof. induction 1; intro K; cbn [app]; [exact K|apply sub_skip; auto|apply sub_take; auto]. Qed.
Lemma sub_trans {A} (a b c : list A) : sub a b -> sub b c -> sub a c.
Proof.
  intros H K. revert a H. induction K as [|x b c K IH|x b c K IH]; intros a H.
  - exact H.
  - constructor. apply IH, H.
  - inversion H; subst; [apply sub_skip|apply sub_take]; apply IH; assumption.
Qed.
Lemma sub_app_l {A} (a b c : list A) : sub (a ++ b) c -> sub a c.
Proof.
  intro H. eapply sub_trans; [|exact H]. rewrite <- (app_nil_r a) at 1. apply sub_app; [apply sub_refl|apply sub_nil_l].
Qed.

(** ** The endpoint's books *)

Definition apps (L : list Key) : list bytes := map snd (filter (of_type CT_APP) L).
Definition alerts (L : list Key) : list Key := filter (of_type CT_ALERT) L.
(** RFC 5246, 7.2.1: a warning alert, description 0, in epoch 1. *)
Definition close_notify : Key := (CT_ALERT, 1, [1; 0]).
Lemma apps_app a b : apps (a ++ b) = apps a ++ apps b.
Proof. unfold apps. rewrite filter_app, map_app. reflexivity. Qed.
Lemma alerts_app a b : alerts (a ++ b) = alerts a ++ alerts b.
Proof. apply filter_app. Qed.
Lemma apps_data ds : apps (map (fun d => (CT_APP, 1, d)) ds) = ds.
Proof. unfold apps. induction ds as [|d ds IH]; cbn; [reflexivity|]. f_equal. exact IH. Qed.
Lemma alerts_data ds : alerts (map (fun d => (CT_APP, 1, d)) ds) = [].
Proof. unfold alerts. induction ds as [|d ds IH]; cbn; [reflexivity|]. exact IH. Qed.

(** The failures that can lose a write: the send queue is full, or protection
    failed. *)
Definition lossy {A} (r : res A) : bool :=
  match r with
  | Ok _ => false
  | Err EInvalidState | Err ETxFull | Err ECrypto => true
  | Err _ => false
  | Panic _ => true
  end.

(** [acc]: the writes accepted so far.  Produced and held back data is a selection
    of it in order; all of it while nothing failed, the peer has not closed and
    the handshake was not given up. *)
Definition Jx (E : Env) (em acc : list bytes) (ok closed : bool) (e : Eng12) (q : list bytes) : Prop :=
  exists L, books E em L e /\ alerts L = (if closed && en_release e then [close_notify] else []) /\
    sub (apps L ++ (if en_cn_recv e then [] else q)) acc /\
    (ok = true -> en_cn_recv e = false -> (closed = true -> en_release e = true) -> apps L ++ q = acc).

Section Acct.
Variable E : Env.

Lemma Jx_frame em acc ok closed a b q : (forall L, RB E em L a b) -> (closed = true -> en_release b = en_release a) ->
  Jx E em acc ok closed a q -> Jx E em acc ok closed b q.
Proof.
  intros H HR (L & B & A & S & K). destruct (H L B) as [B' C]. exists L. split; [exact B'|]. split; [|split].
  - rewrite A. destruct closed; cbn [andb]; [rewrite HR by reflexivity|]; reflexivity.
  - destruct (en_cn_recv b) eqn:Hb.
    + rewrite app_nil_r. eapply sub_app_l; exact S.
    + destruct (en_cn_recv a); [discriminate C; reflexivity|]. exact S.
  - intros K1 K2 K3. apply K; [exact K1| |].
    + destruct (en_cn_recv a); [|reflexivity]. rewrite C in K2 by reflexivity. discriminate.
    + intro Kc. rewrite <- HR by exact Kc. apply K3, Kc.
Qed.

Lemma Jx_ok em acc ok ok' closed e q : (ok' = true -> ok = true) -> Jx E em acc ok closed e q -> Jx E em acc ok' closed e q.
Proof. intros H (L & B & A & S & K). exists L. split; [exact B|]. split; [exact A|]. split; [exact S|]. intro Q. apply K, H, Q. Qed.

Lemma create_lossy ct ep save fn f s :
  wp (create_record_inner E ct ep save fn f) (fun r _ => match r with Ok _ => True | _ => lossy r = true end) s.
Proof.
  eapply wp_mono; [apply create_record_spec|]. cbv beta zeta. intros r s' (o & sv & H).
  destruct r as [u|x|x]; [exact I| |reflexivity]. destruct H as (_ & _ & [->|[->| ->]]); reflexivity.
Qed.

Section Lens.
Variable S : Type.
Variable g : S -> Eng12.
Variable p : Eng12 -> S -> S.
Hypothesis gp : forall e s, g (p e s) = e.

Lemma flush_spec em ds : forall L s, books E em L (g s) -> en_release (g s) = true ->
  wp (iterM (fun d => zoom g p (create_record E CT_APP 1 false d)) ds) (fun r s' =>
    exists done rest, ds = done ++ rest /\ books E em (L ++ map (fun d => (CT_APP, 1, d)) done) (g s') /\
      en_cn_recv (g s') = en_cn_recv (g s) /\ en_release (g s') = true /\
      (r = Ok tt -> rest = []) /\ (lossy r = false -> r = Ok tt)) s.
Proof.
  induction ds as [|d ds IH]; intros L s B HR; cbn [iterM].
  - apply wp_ret. exists [], []. cbn [map app]. rewrite app_nil_r. auto 10.
  - apply wp_bind, wp_zoom. eapply wp_mono; [apply wp_conj; [apply (books_cri E em CT_APP 1 false false d L (g s) B); [discriminate|auto]|apply create_lossy]|].
    cbv beta. intros r e ((K1 & K2 & K3) & K4). destruct r as [u|x|x].
    + eapply wp_mono; [apply (IH (L ++ [(CT_APP, 1, d)]))|].
      * rewrite gp. exact K3.
      * rewrite gp, K2. exact HR.
      * cbv beta. intros r s' (done & rest & -> & Q1 & Q2 & Q3 & Q4). exists (d :: done), rest. split; [reflexivity|].
        split; [cbn [map]; rewrite <- app_assoc in Q1; exact Q1|]. split; [rewrite Q2, gp; exact K1|]. auto.
    + exists [], (d :: ds). cbn [map app]. rewrite app_nil_r, gp, K2. repeat (split; [solve [auto]|]). split; [discriminate|].
      rewrite K4. discriminate.
    + exists [], (d :: ds). cbn [map app]. rewrite app_nil_r, gp, K2. repeat (split; [solve [auto]|]). split; [discriminate|].
      discriminate.
Qed.

(** One record for the application. *)
Lemma send_spec em acc ok s d : Jx E em acc ok false (g s) [] -> en_release (g s) = true ->
  wp (zoom g p (create_record E CT_APP 1 false d)) (fun r s' =>
    en_release (g s') = true /\ en_cn_recv (g s') = en_cn_recv (g s) /\
    Jx E em (match r with Ok _ => acc ++ [d] | _ => acc end) ok false (g s') []) s.
Proof.
  intros (L & B & A & Sb & K) HR. apply wp_zoom.
  eapply wp_mono; [apply (books_cri E em CT_APP 1 false false d L (g s) B); [discriminate|auto]|].
  cbv beta. intros r e (K1 & K2 & K3). rewrite gp. split; [congruence|]. split; [congruence|].
  assert (Sb' : sub (apps L) acc) by (eapply sub_app_l; exact Sb).
  destruct r as [u|x|x].
  - exists (L ++ [(CT_APP, 1, d)]). split; [exact K3|]. rewrite apps_app, alerts_app, A, K1. cbn [andb]. split; [reflexivity|]. split.
    + replace (if en_cn_recv (g s) then [] else @nil bytes) with (@nil bytes) by (destruct (en_cn_recv (g s)); reflexivity).
      rewrite app_nil_r. apply sub_app; [exact Sb'|apply sub_refl].
    + intros Q1 Q2 Q3. rewrite <- (K Q1 Q2) by discriminate. rewrite !app_nil_r. reflexivity.
  - exists L. split; [exact K3|]. rewrite K1. cbn [andb]. split; [exact A|]. split; [exact Sb|]. intros Q1 Q2 Q3. apply K; [exact Q1|exact Q2|discriminate].
  - exists L. split; [exact K3|]. rewrite K1. cbn [andb]. split; [exact A|]. split; [exact Sb|]. intros Q1 Q2 Q3. apply K; [exact Q1|exact Q2|discriminate].
Qed.

(** The close_notify. *)
Lemma alert_spec em acc ok s q : Jx E em acc ok false (g s) q -> en_release (g s) = true ->
  wp (zoom g p (create_record E CT_ALERT 1 false [1; 0])) (fun r s' =>
    en_release (g s') = true /\ en_cn_recv (g s') = en_cn_recv (g s) /\
    match r with Ok _ => Jx E em acc ok true (g s') q | _ => Jx E em acc ok false (g s') q end) s.
Proof.
  intros (L & B & A & Sb & K) HR. apply wp_zoom.
  eapply wp_mono; [apply (books_cri E em CT_ALERT 1 false false [1; 0] L (g s) B); [discriminate|auto]|].
  cbv beta. intros r e (K1 & K2 & K3). rewrite gp. split; [congruence|]. split; [congruence|].
  destruct r as [u|x|x].
  - exists (L ++ [close_notify]). split; [exact K3|]. rewrite apps_app, alerts_app, A, K1, K2, HR. cbn [andb]. split; [reflexivity|].
    change (apps [close_notify]) with (@nil bytes). rewrite app_nil_r. split; [exact Sb|]. intros Q1 Q2 Q3. apply K; [exact Q1|exact Q2|discriminate].
  - exists L. split; [exact K3|]. rewrite K1. cbn [andb]. split; [exact A|]. split; [exact Sb|]. intros Q1 Q2 Q3. apply K; [exact Q1|exact Q2|discriminate].
  - exists L. split; [exact K3|]. rewrite K1. cbn [andb]. split; [exact A|]. split; [exact Sb|]. intros Q1 Q2 Q3. apply K; [exact Q1|exact Q2|discriminate].
Qed.
End Lens.

(** Dropping the send queue. *)
Lemma Jx_discard em acc ok e q : Jx E em acc ok false e q -> en_cn_recv e = true ->
  Jx E em acc ok false (set_en_tx [] e) q.
Proof.
  intros (L & B & A & Sb & K) C. destruct (books_drop E em L e B) as (L1 & L2 & -> & B').
  exists L1. split; [exact B'|]. ecbn. rewrite C in *. rewrite alerts_app in A. cbn [andb] in *. apply app_eq_nil in A.
  split; [apply A|]. rewrite apps_app, app_nil_r in Sb. rewrite app_nil_r. split; [eapply sub_app_l; exact Sb|]. intros _ Q. congruence.
Qed.
Lemma Jx_abort em acc ok e q : Jx E em acc ok false e q -> en_release e = false ->
  Jx E em acc ok true (set_en_connect Disabled (set_en_flight Disabled (set_en_saved [] (set_en_tx [] e)))) q.
Proof.
  intros (L & B & A & Sb & K) C. destruct (books_drop E em L e B) as (L1 & L2 & HL & B').
  assert (HL' : L = []) by (apply B, C). rewrite HL' in *. symmetry in HL. apply app_eq_nil in HL. destruct HL as [-> ->].
  exists []. destruct B' as (B1 & B2 & B3). split; [split; [constructor|split; [exact B2|exact B3]]|]. ecbn. rewrite C. cbn [andb].
  split; [reflexivity|]. split; [exact Sb|]. intros _ _ Q. specialize (Q eq_refl). discriminate.
Qed.
End Acct.

Ltac res_only := repeat (cbv beta; lazymatch goal with
  | |- wp (bind _ _) _ _ => apply wp_any; intros
  | |- wp (ret _) _ _ => apply wp_ret
  | |- wp (fail _) _ _ => exact I
  | |- wp (panic _) _ _ => exact I
  | |- wp (match ?x with _ => _ end) _ _ => destruct x
  | |- wp (let '(_, _) := ?x in _) _ _ => destruct x
  end).

(** The write a call adds to the accepted ones. *)
Definition accepted (c : Call) (r : Reply) : list bytes :=
  match c, r with Send d, Ok _ => [d] | _, _ => [] end.

(** ** Client *)
Section ClientBooks.
Variable E : Env.
Variable em : list bytes.

Definition c_closed (st : CState12) : bool := match st with CS_Closed => true | _ => false end.
Definition Jc acc ok st (c : Client12) : Prop := Jx E em acc ok (c_closed st) (cl_eng c) (cl_queued c).
(** Nothing is held back once established. *)
Definition Qc (st : CState12) (c : Client12) : Prop :=
  st = CS_AwaitApplicationData -> en_cn_recv (cl_eng c) = false -> cl_queued c = [].

Lemma c_step_queued st : c_rank st <> 15 -> pres (fun a b => cl_queued b = cl_queued a) (c_step E st).
Proof.
  intro Hst.
  assert (PO : preorder (fun a b : Client12 => cl_queued b = cl_queued a)) by (split; congruence).
  assert (Hz : forall A (m : M Eng12 A), pres (fun a b => cl_queued b = cl_queued a) (ceng m)).
  { intros A m c. unfold ceng, zoom. destruct (m (cl_eng c)). reflexivity. }
  assert (Hx : forall es b, pres (fun a b => cl_queued b = cl_queued a) (sh12_extensions b es)).
  { induction es as [|[t d] es IH]; intro b; cbn [sh12_extensions];
      presauto PO ltac:(first [apply IH | apply pres_modify; reflexivity]). }
  destruct st; try (exfalso; apply Hst; reflexivity); unfold_c_step;
    presauto PO ltac:(first [apply Hz | apply Hx | apply pres_modify; reflexivity]).
Qed.
Lemma c_step_open st : c_rank st < 15 -> forall c,
  wp (c_step E st) (fun r _ => match r with Ok st' => c_closed st' = false | _ => True end) c.
Proof.
  intros H c. destruct st; cbn [c_rank] in H; try lia; unfold_c_step; cbv zeta; res_only;
    repeat match goal with |- context [if ?b then _ else _] => destruct b end; reflexivity.
Qed.

Lemma c_step_J acc ok st c : inv_c E st c -> Jc acc ok st c ->
  wp (c_step E st) (fun r c' =>
    Jc acc (ok && negb (lossy r)) (match r with Ok st' => st' | _ => st end) c' /\
    (lossy r = false -> c_rank st <> 15 \/ Qc st c') /\
    match r with Panic _ => True | _ => c_rank st <> 15 \/ Qc st c' end) c.
Proof.
  intros I J. destruct (N.eq_dec (c_rank st) 15) as [Hst|Hst].
  - assert (st = CS_AwaitApplicationData) by (destruct st; cbn in Hst; try lia; reflexivity). subst st. clear Hst.
    assert (HR : en_release (cl_eng c) = true) by apply I.
    cbn [c_step]. unfold c_await_application_data. apply wp_bind, wp_get.
    destruct (en_cn_recv (cl_eng c)) eqn:HC.
    + apply wp_bind. unfold ceng at 1. apply wp_zoom. unfold discard_pending_writes. apply wp_modify.
      apply wp_bind. unfold ceng.
      eapply wp_mono; [apply (alert_spec E Client12 cl_eng set_cl_eng ltac:(reflexivity) em acc ok (set_cl_eng (set_en_tx [] (cl_eng c)) c) (cl_queued c))|].
      * apply Jx_discard; [exact J|exact HC].
      * exact HR.
      * cbv beta. intros r c' (K1 & K2 & K3). change (en_cn_recv (cl_eng (set_cl_eng (set_en_tx [] (cl_eng c)) c))) with (en_cn_recv (cl_eng c)) in K2.
        assert (Q : Qc CS_AwaitApplicationData c') by (intros _ Q; congruence).
        assert (Hq : forall b, Jx E em acc ok b (cl_eng c') (cl_queued c) -> Jx E em acc ok b (cl_eng c') (cl_queued c')).
        { intros b (L & B1 & B2 & B3 & B4). exists L. rewrite K2, HC in *. split; [exact B1|]. split; [exact B2|]. split; [exact B3|]. intros _ X; discriminate. }
        destruct r as [u|x|x].
        { apply wp_ret. split; [|split; intros; right; exact Q]. cbn [lossy negb]. rewrite andb_true_r. apply Hq, K3. }
        { split; [|split; intros; right; exact Q]. eapply Jx_ok; [|apply Hq, K3]. intro X. apply andb_prop in X. apply X. }
        { split; [|split; [intros; right; exact Q|exact Logic.I]]. eapply Jx_ok; [|apply Hq, K3]. intro X. apply andb_prop in X. apply X. }
    + apply wp_bind, wp_modify. apply wp_bind. destruct J as (L & B & A & Sb & K). rewrite HC in Sb.
      apply wp_intro. intros r c' Hr.
      assert (Hq : cl_queued c' = []).
      { assert (PO : preorder (fun a b : Client12 => cl_queued b = cl_queued a)) by (split; congruence).
        assert (Hz : forall A (m : M Eng12 A), pres (fun a b => cl_queued b = cl_queued a) (ceng m)).
        { intros A' m x. unfold ceng, zoom. destruct (m (cl_eng x)). reflexivity. }
        assert (Hp : pres (fun a b => cl_queued b = cl_queued a) (iterM (fun d => ceng (create_record E CT_APP 1 false d)) (cl_queued c))).
        { apply pres_iterM; [exact PO|intro; apply Hz]. }
        specialize (Hp (set_cl_queued [] c)). rewrite Hr in Hp. exact Hp. }
      pose proof (flush_spec E Client12 cl_eng set_cl_eng ltac:(reflexivity) em (cl_queued c) L (set_cl_queued [] c) B HR) as W.
      change (fun d => zoom cl_eng set_cl_eng (create_record E CT_APP 1 false d)) with (fun d => ceng (create_record E CT_APP 1 false d)) in W.
      apply (wp_run _ _ _ _ _ Hr) in W. cbv beta in W.
      destruct W as (done & rest & Hd & W1 & W2 & W3 & W4 & W5).
      assert (J' : forall ok', (ok' = true -> ok = true /\ rest = []) -> Jx E em acc ok' false (cl_eng c') (cl_queued c')).
      { intros ok' Hok. exists (L ++ map (fun d => (CT_APP, 1, d)) done). split; [exact W1|]. rewrite apps_app, alerts_app, apps_data, alerts_data, A. cbn [andb c_closed].
        split; [reflexivity|]. change (en_cn_recv (cl_eng (set_cl_queued [] c))) with (en_cn_recv (cl_eng c)) in W2. rewrite W2, HC, Hq, !app_nil_r.
        split; [rewrite Hd, app_assoc in Sb; eapply sub_app_l; exact Sb|]. intros Q1 _ _. destruct (Hok Q1) as [-> ->].
        rewrite app_nil_r in Hd. rewrite <- Hd. apply K; [reflexivity|exact HC|discriminate]. }
      assert (Q : Qc CS_AwaitApplicationData c') by (intros _ _; exact Hq).
      destruct r as [u|x|x].
      * apply wp_ret. split; [|split; intros; right; exact Q]. apply J'. cbn [lossy negb]. rewrite andb_true_r. intros ->.
        split; [reflexivity|]. apply W4. destruct u. reflexivity.
      * split; [|split; intros; right; exact Q]. apply J'. intro X. apply andb_prop in X. destruct X as [-> X]. split; [reflexivity|].
        apply W4, W5. clear - X. destruct x; first [reflexivity|discriminate X].
      * split; [|split; [discriminate|exact Logic.I]]. apply J'. cbn [lossy negb]. rewrite andb_false_r. discriminate.
  - assert (Q0 : forall c', c_rank st <> 15 \/ Qc st c') by (left; exact Hst).
    apply wp_intro. intros r c' Hr.
    assert (HF : forall L, RB E em L (cl_eng c) (cl_eng c')).
    { intro L. pose proof (hl_c_step E (RB E em L) (RB_frame E em L) st Hst c) as X. rewrite Hr in X. exact X. }
    assert (HQ : cl_queued c' = cl_queued c) by (pose proof (c_step_queued st Hst c) as X; rewrite Hr in X; exact X).
    assert (J' : Jc acc ok (match r with Ok st' => st' | _ => st end) c').
    { destruct (N.lt_ge_cases (c_rank st) 15) as [L|L].
      - pose proof (wp_run _ _ _ _ _ Hr (c_step_open st L c)) as O. cbv beta in O.
        assert (O1 : c_closed st = false) by (destruct st; cbn in L; try lia; reflexivity).
        unfold Jc in *. rewrite HQ. rewrite O1 in J.
        replace (c_closed (match r with Ok st' => st' | _ => st end)) with false by (destruct r; congruence).
        eapply Jx_frame; [exact HF|discriminate|exact J].
      - destruct st; cbn in L, Hst; try lia. cbn [c_step] in Hr. injection Hr as <- <-. exact J. }
    split; [eapply Jx_ok; [|exact J']; intro X; apply andb_prop in X; apply X|]. split; [auto|]. destruct r; auto.
Qed.

Lemma c_progress_J n : forall acc ok c, inv_client E c -> Jc acc ok (cl_state c) c ->
  wp (c_progress E n) (fun r c' => Jc acc (ok && negb (lossy r)) (cl_state c') c' /\
    match r with Panic _ => True | _ => Qc (cl_state c') c' end) c.
Proof.
  induction n as [|n IH]; intros acc ok c I J; cbn [c_progress].
  { apply wp_panic. cbn [lossy negb]. rewrite andb_false_r. split; [eapply Jx_ok; [discriminate|exact J]|exact Logic.I]. }
  apply wp_bind, wp_get, wp_bind, wp_intro. intros r c' Hr.
  assert (Hs : cl_state c' = cl_state c) by (pose proof (c_step_state E (cl_state c) c) as S; rewrite Hr in S; exact S).
  pose proof (wp_run _ _ _ _ _ Hr (inv_c_step E _ _ I)) as P.
  pose proof (wp_run _ _ _ _ _ Hr (c_step_J acc ok _ _ I J)) as (J' & _ & Q). clear J.
  assert (QQ : c_rank (cl_state c) <> 15 \/ Qc (cl_state c) c' -> Qc (cl_state c) c').
  { intros [X|X]; [|exact X]. intros Y. rewrite Y in X. exfalso. apply X. reflexivity. }
  destruct r as [st|x|x]; cbn [post] in P.
  - cbn [lossy negb] in J'. rewrite andb_true_r in J'. destruct (cstate12_eqb (cl_state c) st) eqn:Heq.
    + unfold cstate12_eqb in Heq. destruct (cstate12_eq_dec (cl_state c) st); [|discriminate].
      apply wp_ret. cbn [lossy negb]. rewrite andb_true_r, Hs. subst st. split; [exact J'|apply QQ, Q].
    + apply wp_bind, wp_modify. apply IH; [|exact J']. unfold inv_client. ecbn. eapply inv_same; [| |exact P]; [apply Vsame_Tsame, Vsame_refl|repeat split].
  - rewrite Hs. split; [exact J'|apply QQ, Q].
  - rewrite Hs. split; [exact J'|exact Logic.I].
Qed.

Lemma c_eng_J {A} (m : M Eng12 A) acc ok c : (forall L, pres (RB E em L) m) -> pres (fun a b => en_release b = en_release a) m ->
  inv_client E c -> pres (fun a b => inv_client E a -> inv_client E b) (ceng m) -> Jc acc ok (cl_state c) c -> Qc (cl_state c) c ->
  wp (ceng m) (fun r c' => (cl_state c' = cl_state c /\ cl_random c' = cl_random c) /\ inv_client E c' /\ Jc acc ok (cl_state c') c' /\ Qc (cl_state c') c') c.
Proof.
  intros HF HR I HI J Q. apply wp_intro. intros r c' Hr.
  assert (I' : inv_client E c') by (specialize (HI c I); rewrite Hr in HI; exact HI).
  unfold ceng, zoom in Hr. destruct (m (cl_eng c)) as [r0 e] eqn:Hm. injection Hr as <- <-.
  assert (HB : forall L, RB E em L (cl_eng c) e) by (intro L; specialize (HF L (cl_eng c)); rewrite Hm in HF; exact HF).
  assert (HE : en_release e = en_release (cl_eng c)) by (specialize (HR (cl_eng c)); rewrite Hm in HR; exact HR).
  split; [split; reflexivity|]. split; [exact I'|]. split.
  - unfold Jc. ecbn. eapply Jx_frame; [exact HB|intro; exact HE|exact J].
  - intros X Y. ecbn. ecbn_in Y. apply Q; [exact X|]. destruct J as (L & B & _). destruct (HB L B) as [_ C].
    destruct (en_cn_recv (cl_eng c)); [rewrite C in Y by reflexivity; discriminate|reflexivity].
Qed.

Lemma client_call_J cl acc ok c : not_poll cl -> inv_client E c -> Jc acc ok (cl_state c) c -> Qc (cl_state c) c ->
  wp (client12_call E cl) (fun r c' =>
    Jc (acc ++ accepted cl r) (ok && negb (lossy r)) (cl_state c') c' /\
    match r with Panic _ => True | _ => Qc (cl_state c') c' end) c.
Proof.
  intros NP I J Q.
  assert (Hpub : forall (m : M Client12 unit) x, wp m (fun r c' => Jc acc (ok && negb (lossy r)) (cl_state c') c' /\
      match r with Panic _ => True | _ => Qc (cl_state c') c' end) x ->
     wp (public m) (fun r c' => Jc acc (ok && negb (lossy r)) (cl_state c') c' /\
      match r with Panic _ => True | _ => Qc (cl_state c') c' end) x).
  { intros m x. unfold wp, public. destruct (m x) as [[u|e|n] x']; auto. destruct e; auto. }
  assert (Hno : forall (m : M Client12 unit) x, accepted cl (Ok None) = [] -> (forall e, accepted cl (Err e) = []) -> (forall n, accepted cl (Panic n) = []) ->
     wp m (fun r c' => Jc acc (ok && negb (lossy r)) (cl_state c') c' /\ match r with Panic _ => True | _ => Qc (cl_state c') c' end) x ->
     wp (no_output m) (fun r c' => Jc (acc ++ accepted cl r) (ok && negb (lossy r)) (cl_state c') c' /\ match r with Panic _ => True | _ => Qc (cl_state c') c' end) x).
  { intros m x A1 A2 A3 H. unfold no_output. apply wp_bind. eapply wp_mono; [exact H|]. cbv beta. intros r c' K.
    destruct r as [u|e|n]; [apply wp_ret; rewrite A1|rewrite A2|rewrite A3]; rewrite app_nil_r; exact K. }
  destruct cl as [pkt|cap|now|d|]; try destruct NP; cbn [client12_call].
  - apply Hno; try reflexivity. apply Hpub. apply wp_bind.
    eapply wp_mono; [apply (c_eng_J (eng12_parse_packet E pkt) acc ok c); [intro L; apply (hf_parse _ _ (RB_frame E em L))| |exact I| |exact J|exact Q]|].
    + intro e. pose proof (v_parse E pkt e) as V. vrw. reflexivity.
    + apply inv_eng_same, v_parse.
    + cbv beta. intros r c' (S & I' & J' & Q'). destruct r as [u|x|x].
      * apply c_progress_J; assumption.
      * split; [eapply Jx_ok; [|exact J']; intro X; apply andb_prop in X; apply X|exact Q'].
      * split; [eapply Jx_ok; [|exact J']; intro X; apply andb_prop in X; apply X|exact Logic.I].
  - apply Hno; try reflexivity. unfold client12_handle_timeout. apply wp_bind, wp_modify, wp_bind, wp_get, wp_bind.
    assert (Hgo : forall x, inv_client E x -> Jc acc ok (cl_state x) x -> Qc (cl_state x) x ->
      wp (ceng (eng12_handle_timeout E now) ;;; public (c_make_progress E)) (fun r c' => Jc acc (ok && negb (lossy r)) (cl_state c') c' /\
         match r with Panic _ => True | _ => Qc (cl_state c') c' end) x).
    { intros x Ix Jx0 Qx. apply wp_bind.
      eapply wp_mono; [apply (c_eng_J (eng12_handle_timeout E now) acc ok x); [intro L; apply (hf_timeout _ _ (RB_frame E em L))| |exact Ix|apply inv_c_timeout|exact Jx0|exact Qx]|].
      - intro e. pose proof (v_handle_timeout E now e) as V. destruct V. assumption.
      - cbv beta. intros r c' (S & I' & J' & Q'). destruct r as [u|y|y].
        + apply Hpub. apply c_progress_J; assumption.
        + split; [eapply Jx_ok; [|exact J']; intro X; apply andb_prop in X; apply X|exact Q'].
        + split; [eapply Jx_ok; [|exact J']; intro X; apply andb_prop in X; apply X|exact Logic.I]. }
    assert (I1 : inv_client E (set_cl_now now c)).
    { unfold inv_client. ecbn. eapply inv_same; [| |exact I]; [apply Vsame_Tsame, Vsame_refl|repeat split]. }
    ecbn. destruct (cl_random c) as [rb|] eqn:Hrd.
    + apply wp_ret. apply Hgo; assumption.
    + apply wp_bind.
      eapply wp_mono; [apply (c_eng_J (random_with_time E now) acc ok (set_cl_now now c)); [intro L; apply (hl_random_time E _ (RB_frame E em L))| |exact I1| |exact J|exact Q]|].
      * intro e. pose proof (v_random_with_time E now e) as V. vrw. reflexivity.
      * apply inv_eng_same, v_random_with_time.
      * cbv beta. intros r c' (S & I' & J' & Q'). destruct r as [rb|y|y].
        { apply wp_modify. apply Hgo; [|exact J'|exact Q']. apply inv_set_random; [|exact I']. destruct S as [_ ->]. exact Hrd. }
        { split; [eapply Jx_ok; [|exact J']; intro X; apply andb_prop in X; apply X|exact Q']. }
        { split; [eapply Jx_ok; [|exact J']; intro X; apply andb_prop in X; apply X|exact Logic.I]. }
  - unfold no_output. apply wp_bind. unfold client12_send. apply wp_bind, wp_get.
    destruct (cl_state c) eqn:Hst.
    all: try (apply wp_modify, wp_ret; cbn [accepted lossy negb]; ecbn; rewrite Hst, andb_true_r; split; [|intro X; discriminate X];
      destruct J as (L & B & A & Sb & K); exists L; ecbn; split; [exact B|]; split; [exact A|]; split;
      [destruct (en_cn_recv (cl_eng c)); [rewrite app_nil_r in *; rewrite <- (app_nil_r (apps L)); apply sub_app; [exact Sb|apply sub_nil_l]
       |rewrite app_assoc; apply sub_app; [exact Sb|apply sub_refl]]
      |intros Q1 Q2 Q3; rewrite app_assoc; f_equal; apply K; assumption]).
    + assert (HR : en_release (cl_eng c) = true) by (unfold inv_client in I; rewrite Hst in I; apply I).
      destruct (en_cn_recv (cl_eng c)) eqn:HC.
      * apply wp_intro. intros r c' Hr.
        assert (S : c_closed (cl_state c') = false).
        { unfold ceng, zoom in Hr. destruct (create_record E CT_APP 1 false d (cl_eng c)). injection Hr as <- <-. ecbn. rewrite Hst. reflexivity. }
        assert (J0 : Jx E em acc false false (cl_eng c) []).
        { destruct J as (L & B & A & Sb & K). exists L. rewrite HC in *. split; [exact B|]. split; [exact A|]. split; [exact Sb|discriminate]. }
        pose proof (wp_run _ _ _ _ _ Hr (send_spec E Client12 cl_eng set_cl_eng ltac:(reflexivity) em acc false c d J0 HR)) as (K1 & K2 & K3). rewrite HC in K2.
        assert (Hq : forall a ok', Jx E em a false false (cl_eng c') [] -> Jx E em a ok' false (cl_eng c') (cl_queued c')).
        { intros a ok' (L & B & A & Sb & K). exists L. rewrite K2 in *. split; [exact B|]. split; [exact A|]. split; [exact Sb|]. intros _ X; discriminate. }
        assert (QQ : Qc (cl_state c') c') by (intros _ X; congruence).
        destruct r as [u|x|x]; [apply wp_ret|..]; cbn [accepted]; rewrite ?app_nil_r; unfold Jc; rewrite S; (split; [apply Hq, K3|]); try exact Logic.I; exact QQ.
      * assert (Hq0 : cl_queued c = []) by (apply Q; [reflexivity|exact HC]).
        apply wp_intro. intros r c' Hr.
        assert (Hs : cl_state c' = cl_state c /\ cl_queued c' = []).
        { unfold ceng, zoom in Hr. destruct (create_record E CT_APP 1 false d (cl_eng c)). injection Hr as <- <-. split; [reflexivity|exact Hq0]. }
        destruct Hs as [Hs Hq]. unfold Jc in J. cbn [c_closed] in J. rewrite Hq0 in J.
        pose proof (wp_run _ _ _ _ _ Hr (send_spec E Client12 cl_eng set_cl_eng ltac:(reflexivity) em acc ok c d J HR)) as (K1 & K2 & K3).
        assert (QQ : Qc (cl_state c') c') by (intros _ _; exact Hq).
        destruct r as [u|x|x]; [apply wp_ret|..]; cbn [accepted]; rewrite ?app_nil_r; unfold Jc; rewrite Hs, Hst, Hq; cbn [c_closed].
        { cbn [lossy negb]. rewrite andb_true_r. split; [exact K3|rewrite <- Hst, <- Hs; exact QQ]. }
        { split; [eapply Jx_ok; [|exact K3]; intro X; apply andb_prop in X; apply X|rewrite <- Hst, <- Hs; exact QQ]. }
        { split; [eapply Jx_ok; [|exact K3]; intro X; apply andb_prop in X; apply X|exact Logic.I]. }
    + apply wp_fail. cbn [accepted lossy negb]. rewrite app_nil_r, andb_true_r, Hst. split; [exact J|intro X; discriminate X].
  - apply Hno; try reflexivity. unfold client12_close. apply wp_bind, wp_get.
    assert (HA : en_release (cl_eng c) = false -> c_closed (cl_state c) = false ->
      wp (ceng eng12_abort ;;; modify (set_cl_state CS_Closed)) (fun r c' => Jc acc (ok && negb (lossy r)) (cl_state c') c' /\
        match r with Panic _ => True | _ => Qc (cl_state c') c' end) c).
    { intros HR Hcl. apply wp_bind. unfold ceng. apply wp_zoom. unfold eng12_abort. apply wp_modify, wp_modify.
      cbn [lossy negb]. rewrite andb_true_r. split; [|intro X; discriminate X].
      unfold Jc. ecbn. cbn [c_closed]. apply Jx_abort; [|exact HR]. unfold Jc in J. rewrite Hcl in J. exact J. }
    destruct (cl_state c) eqn:Hst.
    all: try (apply HA; [unfold inv_client in I; apply (inv_low_release E (cl_state c) c); rewrite Hst in *; [reflexivity|exact I]|reflexivity]).
    + assert (HR : en_release (cl_eng c) = true) by (unfold inv_client in I; rewrite Hst in I; apply I).
      apply wp_bind. apply wp_intro. intros r c' Hr.
      assert (Hs : cl_state c' = cl_state c /\ cl_queued c' = cl_queued c).
      { unfold ceng, zoom in Hr. destruct (create_record E CT_ALERT 1 false [1; 0] (cl_eng c)). injection Hr as <- <-. split; reflexivity. }
      destruct Hs as [Hs Hq].
      pose proof (wp_run _ _ _ _ _ Hr (alert_spec E Client12 cl_eng set_cl_eng ltac:(reflexivity) em acc ok c (cl_queued c) J HR)) as (K1 & K2 & K3).
      assert (QQ : Qc (cl_state c') c').
      { rewrite Hs, Hst. intros _ X. rewrite Hq. apply Q; [reflexivity|congruence]. }
      unfold Jc. destruct r as [u|x|x].
      * apply wp_modify. ecbn. cbn [c_closed lossy negb]. rewrite andb_true_r, Hq. split; [exact K3|intro X; discriminate X].
      * rewrite Hs, Hst, Hq in *. cbn [c_closed]. split; [eapply Jx_ok; [|exact K3]; intro X; apply andb_prop in X; apply X|exact QQ].
      * rewrite Hs, Hst, Hq in *. cbn [c_closed]. split; [eapply Jx_ok; [|exact K3]; intro X; apply andb_prop in X; apply X|exact Logic.I].
    + apply wp_ret. cbn [lossy negb]. rewrite andb_true_r. rewrite Hst. split; [exact J|exact Q].
Qed.
End ClientBooks.

(** ** Server *)
Section ServerBooks.
Variable E : Env.
Variable em : list bytes.

Definition s_closed (st : SState12) : bool := match st with SS_Closed => true | _ => false end.
Definition Js acc ok st (c : Server12) : Prop := Jx E em acc ok (s_closed st) (sv_eng c) (sv_queued c).
(** Nothing is held back once established. *)
Definition Qs (st : SState12) (c : Server12) : Prop :=
  st = SS_AwaitApplicationData -> en_cn_recv (sv_eng c) = false -> sv_queued c = [].

Lemma s_step_queued st : s_rank st <> 13 -> pres (fun a b => sv_queued b = sv_queued a) (s_step E st).
Proof.
  intro Hst.
  assert (PO : preorder (fun a b : Server12 => sv_queued b = sv_queued a)) by (split; congruence).
  assert (Hz : forall A (m : M Eng12 A), pres (fun a b => sv_queued b = sv_queued a) (seng m)).
  { intros A m c. unfold seng, zoom. destruct (m (sv_eng c)). reflexivity. }
  
  destruct st; try (exfalso; apply Hst; reflexivity); unfold_s_step;
    presauto PO ltac:(first [apply Hz |  apply pres_modify; reflexivity]).
Qed.
Lemma s_step_open st : s_rank st < 13 -> forall c,
  wp (s_step E st) (fun r _ => match r with Ok st' => s_closed st' = false | _ => True end) c.
Proof.
  intros H c. destruct st; cbn [s_rank] in H; try lia; unfold_s_step; cbv zeta; res_only;
    repeat match goal with |- context [if ?b then _ else _] => destruct b end; reflexivity.
Qed.

Lemma s_step_J acc ok st c : inv_s E st c -> Js acc ok st c ->
  wp (s_step E st) (fun r c' =>
    Js acc (ok && negb (lossy r)) (match r with Ok st' => st' | _ => st end) c' /\
    (lossy r = false -> s_rank st <> 13 \/ Qs st c') /\
    match r with Panic _ => True | _ => s_rank st <> 13 \/ Qs st c' end) c.
Proof.
  intros I J. destruct (N.eq_dec (s_rank st) 13) as [Hst|Hst].
  - assert (st = SS_AwaitApplicationData) by (destruct st; cbn in Hst; try lia; reflexivity). subst st. clear Hst.
    assert (HR : en_release (sv_eng c) = true) by apply I.
    cbn [s_step]. unfold s_await_application_data. apply wp_bind, wp_get.
    destruct (en_cn_recv (sv_eng c)) eqn:HC.
    + apply wp_bind. unfold seng at 1. apply wp_zoom. unfold discard_pending_writes. apply wp_modify.
      apply wp_bind. unfold seng.
      eapply wp_mono; [apply (alert_spec E Server12 sv_eng set_sv_eng ltac:(reflexivity) em acc ok (set_sv_eng (set_en_tx [] (sv_eng c)) c) (sv_queued c))|].
      * apply Jx_discard; [exact J|exact HC].
      * exact HR.
      * cbv beta. intros r c' (K1 & K2 & K3). change (en_cn_recv (sv_eng (set_sv_eng (set_en_tx [] (sv_eng c)) c))) with (en_cn_recv (sv_eng c)) in K2.
        assert (Q : Qs SS_AwaitApplicationData c') by (intros _ Q; congruence).
        assert (Hq : forall b, Jx E em acc ok b (sv_eng c') (sv_queued c) -> Jx E em acc ok b (sv_eng c') (sv_queued c')).
        { intros b (L & B1 & B2 & B3 & B4). exists L. rewrite K2, HC in *. split; [exact B1|]. split; [exact B2|]. split; [exact B3|]. intros _ X; discriminate. }
        destruct r as [u|x|x].
        { apply wp_ret. split; [|split; intros; right; exact Q]. cbn [lossy negb]. rewrite andb_true_r. apply Hq, K3. }
        { split; [|split; intros; right; exact Q]. eapply Jx_ok; [|apply Hq, K3]. intro X. apply andb_prop in X. apply X. }
        { split; [|split; [intros; right; exact Q|exact Logic.I]]. eapply Jx_ok; [|apply Hq, K3]. intro X. apply andb_prop in X. apply X. }
    + apply wp_bind, wp_modify. apply wp_bind. destruct J as (L & B & A & Sb & K). rewrite HC in Sb.
      apply wp_intro. intros r c' Hr.
      assert (Hq : sv_queued c' = []).
      { assert (PO : preorder (fun a b : Server12 => sv_queued b = sv_queued a)) by (split; congruence).
        assert (Hz : forall A (m : M Eng12 A), pres (fun a b => sv_queued b = sv_queued a) (seng m)).
        { intros A' m x. unfold seng, zoom. destruct (m (sv_eng x)). reflexivity. }
        assert (Hp : pres (fun a b => sv_queued b = sv_queued a) (iterM (fun d => seng (create_record E CT_APP 1 false d)) (sv_queued c))).
        { apply pres_iterM; [exact PO|intro; apply Hz]. }
        specialize (Hp (set_sv_queued [] c)). rewrite Hr in Hp. exact Hp. }
      pose proof (flush_spec E Server12 sv_eng set_sv_eng ltac:(reflexivity) em (sv_queued c) L (set_sv_queued [] c) B HR) as W.
      change (fun d => zoom sv_eng set_sv_eng (create_record E CT_APP 1 false d)) with (fun d => seng (create_record E CT_APP 1 false d)) in W.
      apply (wp_run _ _ _ _ _ Hr) in W. cbv beta in W.
      destruct W as (done & rest & Hd & W1 & W2 & W3 & W4 & W5).
      assert (J' : forall ok', (ok' = true -> ok = true /\ rest = []) -> Jx E em acc ok' false (sv_eng c') (sv_queued c')).
      { intros ok' Hok. exists (L ++ map (fun d => (CT_APP, 1, d)) done). split; [exact W1|]. rewrite apps_app, alerts_app, apps_data, alerts_data, A. cbn [andb s_closed].
        split; [reflexivity|]. change (en_cn_recv (sv_eng (set_sv_queued [] c))) with (en_cn_recv (sv_eng c)) in W2. rewrite W2, HC, Hq, !app_nil_r.
        split; [rewrite Hd, app_assoc in Sb; eapply sub_app_l; exact Sb|]. intros Q1 _ _. destruct (Hok Q1) as [-> ->].
        rewrite app_nil_r in Hd. rewrite <- Hd. apply K; [reflexivity|exact HC|discriminate]. }
      assert (Q : Qs SS_AwaitApplicationData c') by (intros _ _; exact Hq).
      destruct r as [u|x|x].
      * apply wp_ret. split; [|split; intros; right; exact Q]. apply J'. cbn [lossy negb]. rewrite andb_true_r. intros ->.
        split; [reflexivity|]. apply W4. destruct u. reflexivity.
      * split; [|split; intros; right; exact Q]. apply J'. intro X. apply andb_prop in X. destruct X as [-> X]. split; [reflexivity|].
        apply W4, W5. clear - X. destruct x; first [reflexivity|discriminate X].
      * split; [|split; [discriminate|exact Logic.I]]. apply J'. cbn [lossy negb]. rewrite andb_false_r. discriminate.
  - assert (Q0 : forall c', s_rank st <> 13 \/ Qs st c') by (left; exact Hst).
    apply wp_intro. intros r c' Hr.
    assert (HF : forall L, RB E em L (sv_eng c) (sv_eng c')).
    { intro L. pose proof (hl_s_step E (RB E em L) (RB_frame E em L) st Hst c) as X. rewrite Hr in X. exact X. }
    assert (HQ : sv_queued c' = sv_queued c) by (pose proof (s_step_queued st Hst c) as X; rewrite Hr in X; exact X).
    assert (J' : Js acc ok (match r with Ok st' => st' | _ => st end) c').
    { destruct (N.lt_ge_cases (s_rank st) 13) as [L|L].
      - pose proof (wp_run _ _ _ _ _ Hr (s_step_open st L c)) as O. cbv beta in O.
        assert (O1 : s_closed st = false) by (destruct st; cbn in L; try lia; reflexivity).
        unfold Js in *. rewrite HQ. rewrite O1 in J.
        replace (s_closed (match r with Ok st' => st' | _ => st end)) with false by (destruct r; congruence).
        eapply Jx_frame; [exact HF|discriminate|exact J].
      - destruct st; cbn in L, Hst; try lia. cbn [s_step] in Hr. injection Hr as <- <-. exact J. }
    split; [eapply Jx_ok; [|exact J']; intro X; apply andb_prop in X; apply X|]. split; [auto|]. destruct r; auto.
Qed.

Lemma s_progress_J n : forall acc ok c, inv_server E c -> Js acc ok (sv_state c) c ->
  wp (s_progress E n) (fun r c' => Js acc (ok && negb (lossy r)) (sv_state c') c' /\
    match r with Panic _ => True | _ => Qs (sv_state c') c' end) c.
Proof.
  induction n as [|n IH]; intros acc ok c I J; cbn [s_progress].
  { apply wp_panic. cbn [lossy negb]. rewrite andb_false_r. split; [eapply Jx_ok; [discriminate|exact J]|exact Logic.I]. }
  apply wp_bind, wp_get, wp_bind, wp_intro. intros r c' Hr.
  assert (Hs : sv_state c' = sv_state c) by (pose proof (s_step_state E (sv_state c) c) as S; rewrite Hr in S; exact S).
  pose proof (wp_run _ _ _ _ _ Hr (inv_s_step E _ _ I)) as P.
  pose proof (wp_run _ _ _ _ _ Hr (s_step_J acc ok _ _ I J)) as (J' & _ & Q). clear J.
  assert (QQ : s_rank (sv_state c) <> 13 \/ Qs (sv_state c) c' -> Qs (sv_state c) c').
  { intros [X|X]; [|exact X]. intros Y. rewrite Y in X. exfalso. apply X. reflexivity. }
  destruct r as [st|x|x]; cbn [post_s] in P.
  - cbn [lossy negb] in J'. rewrite andb_true_r in J'. destruct (sstate12_eqb (sv_state c) st) eqn:Heq.
    + unfold sstate12_eqb in Heq. destruct (sstate12_eq_dec (sv_state c) st); [|discriminate].
      apply wp_ret. cbn [lossy negb]. rewrite andb_true_r, Hs. subst st. split; [exact J'|apply QQ, Q].
    + apply wp_bind, wp_modify. apply IH; [|exact J']. unfold inv_server. ecbn. eapply inv_s_same; [| |exact P]; [apply Vsame_Tsame, Vsame_refl|repeat split].
  - rewrite Hs. split; [exact J'|apply QQ, Q].
  - rewrite Hs. split; [exact J'|exact Logic.I].
Qed.

Lemma s_eng_J {A} (m : M Eng12 A) acc ok c : (forall L, pres (RB E em L) m) -> pres (fun a b => en_release b = en_release a) m ->
  inv_server E c -> pres (fun a b => inv_server E a -> inv_server E b) (seng m) -> Js acc ok (sv_state c) c -> Qs (sv_state c) c ->
  wp (seng m) (fun r c' => (sv_state c' = sv_state c /\ sv_random c' = sv_random c) /\ inv_server E c' /\ Js acc ok (sv_state c') c' /\ Qs (sv_state c') c') c.
Proof.
  intros HF HR I HI J Q. apply wp_intro. intros r c' Hr.
  assert (I' : inv_server E c') by (specialize (HI c I); rewrite Hr in HI; exact HI).
  unfold seng, zoom in Hr. destruct (m (sv_eng c)) as [r0 e] eqn:Hm. injection Hr as <- <-.
  assert (HB : forall L, RB E em L (sv_eng c) e) by (intro L; specialize (HF L (sv_eng c)); rewrite Hm in HF; exact HF).
  assert (HE : en_release e = en_release (sv_eng c)) by (specialize (HR (sv_eng c)); rewrite Hm in HR; exact HR).
  split; [split; reflexivity|]. split; [exact I'|]. split.
  - unfold Js. ecbn. eapply Jx_frame; [exact HB|intro; exact HE|exact J].
  - intros X Y. ecbn. ecbn_in Y. apply Q; [exact X|]. destruct J as (L & B & _). destruct (HB L B) as [_ C].
    destruct (en_cn_recv (sv_eng c)); [rewrite C in Y by reflexivity; discriminate|reflexivity].
Qed.

Lemma server_call_J cl acc ok c : not_poll cl -> inv_server E c -> Js acc ok (sv_state c) c -> Qs (sv_state c) c ->
  wp (server12_call E cl) (fun r c' =>
    Js (acc ++ accepted cl r) (ok && negb (lossy r)) (sv_state c') c' /\
    match r with Panic _ => True | _ => Qs (sv_state c') c' end) c.
Proof.
  intros NP I J Q.
  assert (Hpub : forall (m : M Server12 unit) x, wp m (fun r c' => Js acc (ok && negb (lossy r)) (sv_state c') c' /\
      match r with Panic _ => True | _ => Qs (sv_state c') c' end) x ->
     wp (public m) (fun r c' => Js acc (ok && negb (lossy r)) (sv_state c') c' /\
      match r with Panic _ => True | _ => Qs (sv_state c') c' end) x).
  { intros m x. unfold wp, public. destruct (m x) as [[u|e|n] x']; auto. destruct e; auto. }
  assert (Hno : forall (m : M Server12 unit) x, accepted cl (Ok None) = [] -> (forall e, accepted cl (Err e) = []) -> (forall n, accepted cl (Panic n) = []) ->
     wp m (fun r c' => Js acc (ok && negb (lossy r)) (sv_state c') c' /\ match r with Panic _ => True | _ => Qs (sv_state c') c' end) x ->
     wp (no_output m) (fun r c' => Js (acc ++ accepted cl r) (ok && negb (lossy r)) (sv_state c') c' /\ match r with Panic _ => True | _ => Qs (sv_state c') c' end) x).
  { intros m x A1 A2 A3 H. unfold no_output. apply wp_bind. eapply wp_mono; [exact H|]. cbv beta. intros r c' K.
    destruct r as [u|e|n]; [apply wp_ret; rewrite A1|rewrite A2|rewrite A3]; rewrite app_nil_r; exact K. }
  destruct cl as [pkt|cap|now|d|]; try destruct NP; cbn [server12_call].
  - apply Hno; try reflexivity. apply Hpub. apply wp_bind.
    eapply wp_mono; [apply (s_eng_J (eng12_parse_packet E pkt) acc ok c); [intro L; apply (hf_parse _ _ (RB_frame E em L))| |exact I| |exact J|exact Q]|].
    + intro e. pose proof (v_parse E pkt e) as V. vrw. reflexivity.
    + apply inv_s_eng_same, v_parse.
    + cbv beta. intros r c' (S & I' & J' & Q'). destruct r as [u|x|x].
      * apply s_progress_J; assumption.
      * split; [eapply Jx_ok; [|exact J']; intro X; apply andb_prop in X; apply X|exact Q'].
      * split; [eapply Jx_ok; [|exact J']; intro X; apply andb_prop in X; apply X|exact Logic.I].
  - apply Hno; try reflexivity. unfold server12_handle_timeout. apply wp_bind, wp_modify, wp_bind, wp_get, wp_bind.
    assert (Hgo : forall x, inv_server E x -> Js acc ok (sv_state x) x -> Qs (sv_state x) x ->
      wp (seng (eng12_handle_timeout E now) ;;; public (s_make_progress E)) (fun r c' => Js acc (ok && negb (lossy r)) (sv_state c') c' /\
         match r with Panic _ => True | _ => Qs (sv_state c') c' end) x).
    { intros x Ix Jx0 Qx. apply wp_bind.
      eapply wp_mono; [apply (s_eng_J (eng12_handle_timeout E now) acc ok x); [intro L; apply (hf_timeout _ _ (RB_frame E em L))| |exact Ix|apply inv_s_timeout|exact Jx0|exact Qx]|].
      - intro e. pose proof (v_handle_timeout E now e) as V. destruct V. assumption.
      - cbv beta. intros r c' (S & I' & J' & Q'). destruct r as [u|y|y].
        + apply Hpub. apply s_progress_J; assumption.
        + split; [eapply Jx_ok; [|exact J']; intro X; apply andb_prop in X; apply X|exact Q'].
        + split; [eapply Jx_ok; [|exact J']; intro X; apply andb_prop in X; apply X|exact Logic.I]. }
    assert (I1 : inv_server E (set_sv_now now c)).
    { unfold inv_server. ecbn. eapply inv_s_same; [| |exact I]; [apply Vsame_Tsame, Vsame_refl|repeat split]. }
    ecbn. destruct (sv_random c) as [rb|] eqn:Hrd.
    + apply wp_ret. apply Hgo; assumption.
    + apply wp_bind.
      eapply wp_mono; [apply (s_eng_J (random_with_time E now) acc ok (set_sv_now now c)); [intro L; apply (hl_random_time E _ (RB_frame E em L))| |exact I1| |exact J|exact Q]|].
      * intro e. pose proof (v_random_with_time E now e) as V. vrw. reflexivity.
      * apply inv_s_eng_same, v_random_with_time.
      * cbv beta. intros r c' (S & I' & J' & Q'). destruct r as [rb|y|y].
        { apply wp_modify. apply Hgo; [|exact J'|exact Q']. unfold inv_server in *. ecbn. eapply inv_s_same; [| |exact I']; [apply Vsame_Tsame, Vsame_refl|repeat split]. }
        { split; [eapply Jx_ok; [|exact J']; intro X; apply andb_prop in X; apply X|exact Q']. }
        { split; [eapply Jx_ok; [|exact J']; intro X; apply andb_prop in X; apply X|exact Logic.I]. }
  - unfold no_output. apply wp_bind. unfold server12_send. apply wp_bind, wp_get.
    destruct (sv_state c) eqn:Hst.
    all: try (apply wp_modify, wp_ret; cbn [accepted lossy negb]; ecbn; rewrite Hst, andb_true_r; split; [|intro X; discriminate X];
      destruct J as (L & B & A & Sb & K); exists L; ecbn; split; [exact B|]; split; [exact A|]; split;
      [destruct (en_cn_recv (sv_eng c)); [rewrite app_nil_r in *; rewrite <- (app_nil_r (apps L)); apply sub_app; [exact Sb|apply sub_nil_l]
       |rewrite app_assoc; apply sub_app; [exact Sb|apply sub_refl]]
      |intros Q1 Q2 Q3; rewrite app_assoc; f_equal; apply K; assumption]).
    + assert (HR : en_release (sv_eng c) = true) by (unfold inv_server in I; rewrite Hst in I; apply I).
      destruct (en_cn_recv (sv_eng c)) eqn:HC.
      * apply wp_intro. intros r c' Hr.
        assert (S : s_closed (sv_state c') = false).
        { unfold seng, zoom in Hr. destruct (create_record E CT_APP 1 false d (sv_eng c)). injection Hr as <- <-. ecbn. rewrite Hst. reflexivity. }
        assert (J0 : Jx E em acc false false (sv_eng c) []).
        { destruct J as (L & B & A & Sb & K). exists L. rewrite HC in *. split; [exact B|]. split; [exact A|]. split; [exact Sb|discriminate]. }
        pose proof (wp_run _ _ _ _ _ Hr (send_spec E Server12 sv_eng set_sv_eng ltac:(reflexivity) em acc false c d J0 HR)) as (K1 & K2 & K3). rewrite HC in K2.
        assert (Hq : forall a ok', Jx E em a false false (sv_eng c') [] -> Jx E em a ok' false (sv_eng c') (sv_queued c')).
        { intros a ok' (L & B & A & Sb & K). exists L. rewrite K2 in *. split; [exact B|]. split; [exact A|]. split; [exact Sb|]. intros _ X; discriminate. }
        assert (QQ : Qs (sv_state c') c') by (intros _ X; congruence).
        destruct r as [u|x|x]; [apply wp_ret|..]; cbn [accepted]; rewrite ?app_nil_r; unfold Js; rewrite S; (split; [apply Hq, K3|]); try exact Logic.I; exact QQ.
      * assert (Hq0 : sv_queued c = []) by (apply Q; [reflexivity|exact HC]).
        apply wp_intro. intros r c' Hr.
        assert (Hs : sv_state c' = sv_state c /\ sv_queued c' = []).
        { unfold seng, zoom in Hr. destruct (create_record E CT_APP 1 false d (sv_eng c)). injection Hr as <- <-. split; [reflexivity|exact Hq0]. }
        destruct Hs as [Hs Hq]. unfold Js in J. cbn [s_closed] in J. rewrite Hq0 in J.
        pose proof (wp_run _ _ _ _ _ Hr (send_spec E Server12 sv_eng set_sv_eng ltac:(reflexivity) em acc ok c d J HR)) as (K1 & K2 & K3).
        assert (QQ : Qs (sv_state c') c') by (intros _ _; exact Hq).
        destruct r as [u|x|x]; [apply wp_ret|..]; cbn [accepted]; rewrite ?app_nil_r; unfold Js; rewrite Hs, Hst, Hq; cbn [s_closed].
        { cbn [lossy negb]. rewrite andb_true_r. split; [exact K3|rewrite <- Hst, <- Hs; exact QQ]. }
        { split; [eapply Jx_ok; [|exact K3]; intro X; apply andb_prop in X; apply X|rewrite <- Hst, <- Hs; exact QQ]. }
        { split; [eapply Jx_ok; [|exact K3]; intro X; apply andb_prop in X; apply X|exact Logic.I]. }
    + apply wp_fail. cbn [accepted lossy negb]. rewrite app_nil_r, andb_true_r, Hst. split; [exact J|intro X; discriminate X].
  - apply Hno; try reflexivity. unfold server12_close. apply wp_bind, wp_get.
    assert (HA : en_release (sv_eng c) = false -> s_closed (sv_state c) = false ->
      wp (seng eng12_abort ;;; modify (set_sv_state SS_Closed)) (fun r c' => Js acc (ok && negb (lossy r)) (sv_state c') c' /\
        match r with Panic _ => True | _ => Qs (sv_state c') c' end) c).
    { intros HR Hcl. apply wp_bind. unfold seng. apply wp_zoom. unfold eng12_abort. apply wp_modify, wp_modify.
      cbn [lossy negb]. rewrite andb_true_r. split; [|intro X; discriminate X].
      unfold Js. ecbn. cbn [s_closed]. apply Jx_abort; [|exact HR]. unfold Js in J. rewrite Hcl in J. exact J. }
    destruct (sv_state c) eqn:Hst.
    all: try (apply HA; [unfold inv_server in I; apply (inv_s_low_release E (sv_state c) c); rewrite Hst in *; [reflexivity|exact I]|reflexivity]).
    + assert (HR : en_release (sv_eng c) = true) by (unfold inv_server in I; rewrite Hst in I; apply I).
      apply wp_bind. apply wp_intro. intros r c' Hr.
      assert (Hs : sv_state c' = sv_state c /\ sv_queued c' = sv_queued c).
      { unfold seng, zoom in Hr. destruct (create_record E CT_ALERT 1 false [1; 0] (sv_eng c)). injection Hr as <- <-. split; reflexivity. }
      destruct Hs as [Hs Hq].
      pose proof (wp_run _ _ _ _ _ Hr (alert_spec E Server12 sv_eng set_sv_eng ltac:(reflexivity) em acc ok c (sv_queued c) J HR)) as (K1 & K2 & K3).
      assert (QQ : Qs (sv_state c') c').
      { rewrite Hs, Hst. intros _ X. rewrite Hq. apply Q; [reflexivity|congruence]. }
      unfold Js. destruct r as [u|x|x].
      * apply wp_modify. ecbn. cbn [s_closed lossy negb]. rewrite andb_true_r, Hq. split; [exact K3|intro X; discriminate X].
      * rewrite Hs, Hst, Hq in *. cbn [s_closed]. split; [eapply Jx_ok; [|exact K3]; intro X; apply andb_prop in X; apply X|exact QQ].
      * rewrite Hs, Hst, Hq in *. cbn [s_closed]. split; [eapply Jx_ok; [|exact K3]; intro X; apply andb_prop in X; apply X|exact Logic.I].
    + apply wp_ret. cbn [lossy negb]. rewrite andb_true_r. rewrite Hst. split; [exact J|exact Q].
Qed.
End ServerBooks.

(** ** Histories *)

Definition end_queued (s : End12) : list bytes := match s with Cl c => cl_queued c | Sv c => sv_queued c end.
Definition end_closed (s : End12) : bool :=
  match s with Cl c => c_closed (cl_state c) | Sv c => s_closed (sv_state c) end.
Definition end_established (s : End12) : Prop :=
  match s with Cl c => cl_state c = CS_AwaitApplicationData | Sv c => sv_state c = SS_AwaitApplicationData end.
Definition Je E em acc ok s : Prop := Jx E em acc ok (end_closed s) (end_eng s) (end_queued s).
Definition Qe (s : End12) : Prop := end_established s -> en_cn_recv (end_eng s) = false -> end_queued s = [].

(** The writes accepted in a history, and whether no failure lost one. *)
Definition writes (h : list (Call * Reply)) : list bytes := flat_map (fun x => accepted (fst x) (snd x)) h.
Definition calm (h : list (Call * Reply)) : bool := forallb (fun x => negb (lossy (snd x))) h.

Section EndBooks.
Variable E : Env.

Lemma poll_J em acc ok cap s r s' : end12_call E (Poll cap) s = (r, s') -> Je E em acc ok s -> Qe s ->
  Je E (em ++ packet_in r) acc ok s' /\ Qe s'.
Proof.
  intros H (L & B & A & Sb & K) Q.
  assert (F : end_queued s' = end_queued s /\ end_closed s' = end_closed s /\ (end_established s' -> end_established s)).
  { rewrite poll_unfold in H. destruct (end_events s) as [|[| |m x] l].
    - destruct (eng12_poll_output _ _ _) as [r0 e0]. injection H as <- <-. destruct s; repeat split; auto.
    - destruct (end_certs s); [|destruct (_ <=? cap)]; injection H as <- <-; destruct s; repeat split; auto.
    - injection H as <- <-; destruct s; repeat split; auto.
    - injection H as <- <-; destruct s; repeat split; auto. }
  destruct F as (F1 & F2 & F3).
  pose proof (wire_poll E (fun em e => books E em L e /\ en_cn_recv e = en_cn_recv (end_eng s) /\ en_release e = en_release (end_eng s))) as W.
  specialize (W ltac:(intros; assumption) ltac:(intros; assumption)).
  specialize (W ltac:(intros em0 p l e Ht ((B1 & B2 & rss & B3 & B4 & B5) & C1 & C2); split; [|auto]; split; [exact B1|]; split; [exact B2|];
    exists rss; ecbn; rewrite <- app_assoc; cbn [app]; rewrite <- Ht; auto)).
  specialize (W em cap s r s' H (conj B (conj eq_refl eq_refl))). destruct W as (W1 & W2 & W3).
  split.
  - exists L. rewrite F1, F2, W2, W3. auto.
  - intros X Y. rewrite F1. rewrite W2 in Y. apply Q; [apply F3, X|exact Y].
Qed.

Lemma call_J em acc ok c s r s' : inv_end E s -> end12_call E c s = (r, s') -> Je E em acc ok s -> Qe s ->
  Je E (em ++ packet_in r) (acc ++ accepted c r) (ok && negb (lossy r)) s' /\ (~ panicked r -> Qe s').
Proof.
  intros I H J Q. destruct (match c with Poll _ => true | _ => false end) eqn:Hc.
  - destruct c; try discriminate. destruct (poll_J em acc ok cap s r s' H J Q) as [J' Q'].
    assert (accepted (Poll cap) r = []) by reflexivity. rewrite H0, app_nil_r. split; [|auto].
    eapply Jx_ok; [|exact J']. intro X. apply andb_prop in X. apply X.
  - assert (NP : forall cap, c <> Poll cap) by (intros cap ->; discriminate).
    rewrite (nonpoll_no_packet E c s r s' NP H), app_nil_r.
    assert (NP' : not_poll c) by (destruct c; cbn; auto; discriminate).
    destruct s as [x|x]; cbn [end12_call] in H.
    + pose proof (client_call_J E em c acc ok x NP' I J Q) as W. unfold wp in W.
      destruct (client12_call E c x) as [r0 x0]. injection H as <- <-. destruct W as [W1 W2]. split; [exact W1|].
      intro X. destruct r0; cbn in X; try tauto; exact W2.
    + pose proof (server_call_J E em c acc ok x NP' I J Q) as W. unfold wp in W.
      destruct (server12_call E c x) as [r0 x0]. injection H as <- <-. destruct W as [W1 W2]. split; [exact W1|].
      intro X. destruct r0; cbn in X; try tauto; exact W2.
Qed.

Lemma reach_J cfg auth h s : reach12 E cfg auth h s ->
  Je E (packets_of (outputs h)) (writes h) (calm h) s /\ (Forall (fun x => ~ panicked (snd x)) h -> Qe s).
Proof.
  intros HR. pose proof HR as (s0 & H0 & H).
  assert (J0 : Je E [] [] true s0 /\ Qe s0).
  { assert (K : end_queued s0 = [] /\ en_saved (end_eng s0) = [] /\ en_tx (end_eng s0) = [] /\ end_closed s0 = false).
    { clear H. induction H0 as [now|s1 H1 IH|c1 H1 IH]; cbn in *; repeat split; auto; apply IH. }
    destruct K as (K1 & K2 & K3 & K4). split; [|intros _ _; exact K1].
    exists []. unfold books. rewrite K1, K2, K3, K4. cbn [andb app]. split; [split; [constructor|split; [reflexivity|exists []; repeat split; constructor]]|].
    split; [reflexivity|]. split; [destruct (en_cn_recv _); constructor|reflexivity]. }
  clear HR. assert (HI : forall h' s', history E s0 h' s' -> inv_end E s').
  { intros h' s' Hh. eapply reach_end_inv. exists s0. split; [exact H0|exact Hh]. }
  induction H as [|h s c r s' H IH NP C].
  - split; [apply J0|intros _; apply J0].
  - destruct IH as [J Q]. specialize (Q NP). destruct (call_J _ _ _ c s r s' (HI _ _ H) C J Q) as [J' Q'].
    split.
    + rewrite packets_snoc. unfold writes, calm. rewrite flat_map_app, forallb_app. cbn [flat_map forallb fst snd].
      rewrite app_nil_r, andb_true_r. exact J'.
    + intro F. apply Forall_app in F. destruct F as [_ F]. inversion F; subst. apply Q'. assumption.
Qed.
End EndBooks.
