(** Proof that a DTLS 1.3 server with the cookie enabled sends nothing but
    HelloRetryRequest until a ClientHello with the right cookie arrives. *)
From Verif Require Import Prelude PreludeFacts Types Codec Codec12 Codec13 Record12 Record13 Monad MonadFacts Timer Env Config Prf Engine12 Client12
  Engine13 Client13 Server13 Context12 History12 History12Facts History13 Frame13 Lift13 Index13 Send13Proofs Trace13 Trace13Proofs Tx12Proofs Out13 Evidence12 Evidence13
  ClientInv12 ClientStep12 HsEng13 ClientInv13 ClientStep13 ClientDone13 ServerStep13 Poll13Proofs.

(** A fragment of a HelloRetryRequest: the message is a ServerHello with the special
    random. *)
Definition hrr_piece (f : bytes) : Prop :=
  exists h seq off n, sh_random h = HRR_RANDOM /\
    f = s_hs_header MT_ServerHello (u32 (len (s_sh13 h))) seq off n ++ firstn (N.to_nat n) (skipn (N.to_nat off) (s_sh13 h)).
Definition hrr_datagram (d : bytes) : Prop :=
  exists rs : list (N * bytes), d = concat (map (fun x => s_plain13 CT_HS 0 (fst x) (snd x)) rs) /\
    Forall (fun x => hrr_piece (snd x)) rs.
Definition hrr_entry (e : Entry13) : Prop := en13_ctype e = CT_HS /\ en13_epoch e = 0 /\ hrr_piece (en13_frag e).
Definition HW (e : Eng13) : Prop :=
  (g_hs_send e = None /\ g_app_send e = None /\ g_prev e = None) /\ Forall hrr_datagram (g_tx e) /\ Forall hrr_entry (g_saved e).
Definition RW (a b : Eng13) : Prop := HW a -> HW b.
Lemma RW_po : preorder RW.
Proof. split; unfold RW; auto. Qed.

Lemma hw_emit app sq f e : hrr_piece f -> (app = true -> g_tx e <> []) -> HW e -> HW (emit13 app (s_plain13 CT_HS 0 sq f) e).
Proof.
  intros Hf Ha (K & H1 & H2). unfold emit13. destruct app.
  - split; [exact K|]. split; [|exact H2]. cbn. destruct (snoc_case _ (Ha eq_refl)) as (q & b & Hq). rewrite Hq in *. rewrite append_last_snoc.
    apply Forall_app in H1. destruct H1 as [B1 B2]. apply Forall_app. split; [exact B1|]. inversion B2 as [|? ? (rs & C1 & C2) _]; subst.
    constructor; [|constructor]. exists (rs ++ [(sq, f)]). rewrite map_app, concat_app. cbn [map concat fst snd]. rewrite app_nil_r. split; [reflexivity|].
    apply Forall_app. split; [exact C2|]. constructor; [exact Hf|constructor].
  - split; [exact K|]. split; [|exact H2]. cbn. apply Forall_app. split; [exact H1|]. constructor; [|constructor].
    exists [(sq, f)]. split; [cbn [map concat fst snd]; rewrite app_nil_r; reflexivity|constructor; [exact Hf|constructor]].
Qed.
Lemma can_append13_nonnil e n : can_append13 e n = true -> g_tx e <> [].
Proof. unfold can_append13. intros H X. rewrite X in H. cbn in H. rewrite andb_false_r in H. discriminate. Qed.
Lemma hw_keep sv sq f e : hrr_piece f -> HW e -> HW (keep13 sv (mkEntry13 CT_HS 0 sq f false) e).
Proof.
  intros Hf (K & H1 & H2). unfold keep13. destruct sv; [|split; [exact K|split; assumption]].
  split; [exact K|]. split; [exact H1|]. cbn. apply Forall_app. split; [exact H2|]. constructor; [repeat split; exact Hf|constructor].
Qed.
Lemma hw_plain sv f : hrr_piece f -> pres RW (create_plain13 CT_HS sv f).
Proof.
  intros Hf s H. pose proof (create_plain_spec CT_HS sv f s) as W. unfold wp in W. destruct (create_plain13 CT_HS sv f s) as [r s']. cbn [fst snd] in *. cbv zeta in W.
  destruct r as [u|x|n].
  - destruct W as (_ & _ & _ & ->). apply hw_emit; [exact Hf| |].
    + intros Ha. apply can_append13_nonnil in Ha. unfold keep13. destruct sv; exact Ha.
    + apply (hw_keep sv (g_seq0 s) f s Hf) in H. exact H.
  - destruct W as [_ ->]. apply hw_keep; assumption.
  - destruct W as (_ & _ & -> & _). exact H.
Qed.
Lemma hw_cipher E ct ep f : pres RW (create_cipher13 E ct ep false f).
Proof.
  intros s H. pose proof (create_cipher_spec E ct ep false f s) as W. unfold wp in W. destruct (create_cipher13 E ct ep false f s) as [r s']. cbn [fst snd] in *. cbv zeta in W.
  destruct r as [u|x|n].
  - exfalso. destruct W as (cs & i & k & body & rec & _ & _ & W & _). destruct H as ((K1 & K2 & K3) & _). unfold ctx_keys in W.
    destruct (ctx13 s ep); congruence.
  - destruct W as [_ ->]. exact H.
  - destruct W as [-> | ->]; exact H.
Qed.
Lemma skipn_twice13 {A} a b (l : list A) : skipn a (skipn b l) = skipn (a + b) l.
Proof.
  revert l. induction b as [|b IH]; intros l; [rewrite Nat.add_0_r; reflexivity|]. rewrite Nat.add_succ_r.
  destruct l as [|x l]; [rewrite !skipn_nil; reflexivity|]. cbn [skipn]. apply IH.
Qed.
Lemma hw_frag E h total seq prot : sh_random h = HRR_RANDOM -> total = u32 (len (s_sh13 h)) ->
  forall fuel off rest, rest = skipn (N.to_nat off) (s_sh13 h) -> pres RW (frag_loop13 E fuel MT_ServerHello total seq 0 prot off rest).
Proof.
  intros Hh Ht. pose proof RW_po as PO. induction fuel as [|fuel IH]; intros off rest Hr; destruct rest as [|b r]; cbn [frag_loop13]; try (apply pres_ret, PO); try (apply pres_panic, PO).
  apply (pres_bind _ PO); [apply pres_get, PO|]. intros s. cbv zeta. cbn [N.eqb]. set (chunk := N.min _ _). clearbody chunk.
  apply (pres_bind _ PO); [apply hw_plain|intros _; apply IH].
  - exists h, seq, off, chunk. split; [exact Hh|]. rewrite Ht, Hr. reflexivity.
  - rewrite Hr. rewrite skipn_twice13. f_equal. lia.
Qed.

(** ** The engine *)
Lemma hw_resend_loop E es : Forall hrr_entry es -> forall s, HW s ->
  HW (snd (resend_loop13 E es s)) /\ match fst (resend_loop13 E es s) with Ok es' => Forall hrr_entry es' | _ => True end.
Proof.
  intros H. induction H as [|e r He H IH]; intros s Hs; cbn [resend_loop13]; [split; [exact Hs|constructor]|].
  destruct (en13_acked e).
  - unfold bind. specialize (IH s Hs). destruct (resend_loop13 E r s) as [[es'|x|n] s1]; cbn [fst snd ret] in *; destruct IH; split; auto.
  - unfold bind at 1 2 3 4, get. destruct He as (H1 & H2 & H3). rewrite H1, H2. cbn [N.eqb]. unfold bind.
    pose proof (hw_plain false (en13_frag e) H3 s Hs) as P. destruct (create_plain13 CT_HS false (en13_frag e) s) as [[u|x|n] s1]; cbn [fst snd] in *; try (split; [exact P|exact I]).
    specialize (IH s1 P). destruct (resend_loop13 E r s1) as [[es'|x|n] s2]; cbn [fst snd ret] in *; destruct IH; split; auto.
    constructor; [|assumption]. split; [reflexivity|split; [reflexivity|exact H3]].
Qed.
Lemma hw_resend E : pres RW (flight_resend13 E).
Proof.
  intros s H. unfold flight_resend13. unfold bind at 1, get at 1. unfold bind at 1, modify at 1.
  assert (H0 : HW (set_g_sealed true (set_g_saved [] s))) by (destruct H as (K & H1 & H2); split; [exact K|split; [exact H1|constructor]]).
  destruct (hw_resend_loop E (g_saved s) (proj2 (proj2 H)) _ H0) as [P Q]. unfold bind.
  destruct (resend_loop13 E (g_saved s) _) as [[es'|x|n] s1]; cbn [fst snd modify] in *; try exact P.
  destruct P as (K & H1 & _). split; [exact K|split; [exact H1|exact Q]].
Qed.
Lemma hw_mark es l : Forall hrr_entry l -> Forall hrr_entry (map (mark_acked es) l).
Proof.
  intros H. induction H as [|e l He H IH]; cbn [map]; constructor; [|exact IH]. unfold mark_acked.
  destruct (existsb _ _); [|exact He]. exact He.
Qed.
Lemma hw_ack E d : pres RW (process_ack E d).
Proof.
  pose proof RW_po as PO. unfold process_ack. destruct (p_ack d) as [es|]; [|apply pres_ret, PO].
  apply (pres_bind _ PO); [apply pres_modify; intros s (K & H1 & H2); split; [exact K|split; [exact H1|apply hw_mark, H2]]|]. intros _.
  apply (pres_bind _ PO); [apply pres_get, PO|]. intros s1.
  apply (pres_bind _ PO); [|intros _].
  { apply (pres_when _ PO). apply pres_modify; intros s (K & H1 & H2); split; [exact K|split; [exact H1|constructor]]. }
  apply (pres_bind _ PO); [apply pres_get, PO|]. intros s2. apply (pres_when _ PO).
  intros s H. unfold update_send_keys. unfold bind, get. destruct H as ((K1 & K2 & K3) & H). rewrite K2. cbn [fail snd]. split; [repeat split; assumption|exact H].
Qed.
Lemma hw_tx cap : pres RW (poll_packet_tx13 cap).
Proof.
  intros s H. unfold poll_packet_tx13, bind, get. destruct (g_tx s) as [|p r] eqn:Ht; [exact H|]. destruct (cap <? len p); [exact H|].
  cbn [modify ret snd]. destruct H as (K & H1 & H2). rewrite Ht in H1. inversion H1; subst. split; [exact K|split; assumption].
Qed.
Ltac hwm := (apply pres_modify; intros ? (? & ? & ?); split; [assumption|split; first [assumption|constructor]]).
Ltac hwe := intros ? ?; assumption.
Lemma hw_draw : pres RW draw13.
Proof. apply op_draw13; [apply RW_po|intros v s H; exact H]. Qed.
Lemma hw_insert E inc r h : pres RW (insert_handshake13 E inc r h).
Proof. unfold insert_handshake13, bsearch13. presauto RW_po ltac:(first [apply (hw_resend E)|apply hw_draw|hwm]). Qed.
Lemma hw_sched now s : RW s (maybe_schedule_ack now s).
Proof. destruct (maybe_ack_set now s) as (d & ->). intro H. exact H. Qed.
Lemma hw_timeout E now : pres RW (eng13_handle_timeout E now).
Proof.
  unfold eng13_handle_timeout, maybe_flush_ack.
  presauto RW_po ltac:(first [apply (hw_resend E)|apply hw_draw|apply (hw_cipher E)|hwm|apply pres_modify; intro; apply hw_sched]).
Qed.
Lemma hw_abort : pres RW eng13_abort.
Proof. unfold eng13_abort. apply pres_modify. intros s (K & H1 & H2). split; [exact K|split; constructor]. Qed.
Lemma hw_cancel : pres RW cancel_flights.
Proof. unfold cancel_flights. apply pres_modify. intros s (K & H1 & H2). split; [exact K|split; [exact H1|constructor]]. Qed.
Lemma hw_frame E : call_frame13 E RW.
Proof.
  pose proof RW_po as PO.
  constructor; fr13o ltac:(first [apply hw_abort | apply hw_cancel | apply (hw_insert E) | apply (hw_timeout E) | apply (hw_resend E) | apply (hw_ack E) | apply hw_tx | apply (hw_cipher E)])
    ltac:(first [exact PO | intros; intro; assumption]).
Qed.

(** ** Waiting for a ClientHello *)
Definition RWy (a b : Server13) : Prop := RW (xs_eng a) (xs_eng b).
Lemma RWy_po : preorder RWy.
Proof. split; unfold RWy, RW; auto. Qed.
Lemma hw_yeng {A} (m : M Eng13 A) : pres RW m -> pres RWy (yeng m).
Proof. apply pres_zoom. auto. Qed.
Lemma hw_create E h : sh_random h = HRR_RANDOM -> pres RW (create_handshake13 E MT_ServerHello (ret (s_sh13 h))).
Proof.
  intros Hh s H. unfold create_handshake13. unfold bind at 1, ret at 1. unfold bind at 1, get at 1. unfold bind at 1, modify at 1.
  unfold bind at 1, modify at 1. change (mt13_epoch MT_ServerHello) with 0. cbv zeta. cbn [N.eqb]. unfold bind at 1, ret at 1.
  match goal with |- HW (snd (_ ?s1)) => assert (H1 : HW s1) by exact H end. revert H1.
  generalize (g_next_hs s) as seq. intros seq. match goal with |- HW ?s1 -> _ => generalize s1 end. intros s1 H1.
  destruct (s_sh13 h) as [|b r] eqn:Hb.
  - refine (hw_plain true _ _ s1 H1). exists h, seq, 0, 0. rewrite Hb. split; [exact Hh|reflexivity].
  - rewrite <- Hb. refine (hw_frag E h _ seq _ Hh eq_refl _ 0 _ _ s1 H1). reflexivity.
Qed.
Lemma hw_await E : pres RWy (y_await_client_hello E).
Proof.
  pose proof RW_po as PO. pose proof RWy_po as PY.
  assert (L : forall {A} (m : M Eng13 A), pres RW m -> pres RWy (yeng m)) by (intros A m; apply hw_yeng).
  assert (Nx : forall a b w, pres RW (next_handshake13_gen a b w)) by (intros; unfold next_handshake13_gen; presauto PO ltac:(first [apply hw_draw | hwm])).
  assert (Rp : forall n, pres RW (replace_transcript E n)) by (intros; fr13o ltac:(fail) ltac:(first [exact PO | intros; intro; assumption])).
  assert (Fb : pres RW (flight_begin13 E)) by (unfold flight_begin13; presauto PO ltac:(first [apply hw_draw | hwm])).
  assert (Ad : pres RW advance_peer) by (fr13o ltac:(fail) ltac:(first [exact PO | intros; intro; assumption])).
  assert (Rs : pres RW reset_for_hello_retry) by (unfold reset_for_hello_retry; hwm).
  unfold y_await_client_hello, next_client_hello_auto, next_handshake13, y_select, y_retry, send_hello_retry, y_accept_hello, cookie13.
  presauto PY ltac:(first [apply L; first [apply Nx | (destruct (xs_auto _); apply Nx) | apply Rp | apply Fb | apply Ad | apply Rs | apply hw_draw | apply hw_create; reflexivity | hwm]
    | (apply pres_modify; intros ? ?; assumption)]).
Qed.

(** What leaves that state: the key share was used. *)
Definition await_out (r : res SState13) (c : Server13) : Prop :=
  match r with Ok st => st = ST_AwaitClientHello \/ st = ST_SendServerHello /\ xs_shared c <> None | _ => True end.
Lemma await_result E c : wp (y_await_client_hello E) await_out c.
Proof.
  assert (Z : forall {A} (m : M Eng13 A) (Q : res A -> Server13 -> Prop) d,
    (forall r e, Q r (set_xs_eng e d)) -> wp (yeng m) Q d).
  { intros A m Q d H. apply wp_zoom. unfold wp. apply H. }
  assert (Rt : forall cs ck g d, wp (y_retry E cs ck g) await_out d).
  { intros cs ck g d. eapply wp_mono; [apply retry_state|]. intros [st|x|n] d' [_ H]; [left; exact H|exact I..]. }
  assert (Ac : forall cs x g p d, wp (y_accept_hello E cs x g p) await_out d).
  { intros cs x g p d. unfold y_accept_hello. apply wp_bind, wp_get. destruct (negb _); [exact I|].
    apply wp_bind, Z. intros [t|e|n] e1; [|exact I..]. apply wp_bind, wp_of_opt. destruct (e_kx_start E g t) as [kx|]; [|exact I].
    apply wp_bind, wp_modify, wp_bind, wp_of_opt. destruct (e_kx_complete _ _ _ _) as [sh|]; [|exact I]. apply wp_bind, wp_modify, wp_bind.
    destruct (find _ _); [apply wp_modify|apply wp_ret];
      apply wp_bind, Z; (intros [[]|?|?] e2; [|exact I..]); apply wp_bind, wp_modify, wp_bind, Z; (intros [[]|?|?] e3; [|exact I..]);
      apply wp_ret; right; (split; [reflexivity|discriminate]). }
  assert (Se : forall h x n d, wp (y_select E h x n) await_out d).
  { intros h x n d. unfold y_select, cookie13. apply wp_bind, wp_get. apply wp_bind, wp_of_opt. destruct (find _ (h_suites h)) as [cs|]; [|exact I].
    apply wp_bind, wp_modify.
    repeat first [apply Rt | apply Ac | exact I | (left; reflexivity) | wpstep
      | (apply Z; intros [?|?|?] ?; cbv iota)]. }
  unfold y_await_client_hello. apply wp_bind, wp_get, wp_bind, Z. intros [[m|]|x|n] e; [|left; reflexivity|exact I..].
  destruct (n_body m); try exact I. destruct (negb _); [exact I|]. destruct (negb _); [exact I|]. destruct (negb _); [exact I|].
  destruct (ch13_scan _ _) as [x|x|n]; [|exact I..]. destruct (negb _); [destruct (xs_auto c); exact I|]. apply Se.
Qed.

(** ** After the ClientHello *)
Definition RT (a b : Eng13) : Prop := starts_with (g_transcript b) (g_transcript a).
Lemma RT_po : preorder RT.
Proof. split; [intro; apply starts_with_refl|]. intros a b c [x Hx] [y Hy]. exists (x ++ y). rewrite Hy, Hx, app_assoc. reflexivity. Qed.
Definition RTy (a b : Server13) : Prop := xs_secret b = xs_secret a /\ RT (xs_eng a) (xs_eng b).
Lemma RTy_po : preorder RTy.
Proof. split; [intro; split; [reflexivity|apply RT_po]|]. intros a b c [A1 A2] [B1 B2]. split; [congruence|eapply RT_po; eassumption]. Qed.
Lemma rt_yeng {A} (m : M Eng13 A) : pres RT m -> pres RTy (yeng m).
Proof. intros P c. unfold yeng, zoom. specialize (P (xs_eng c)). destruct (m (xs_eng c)). split; [reflexivity|exact P]. Qed.
Lemma rt_gt {A} (m : M Eng13 A) : pres GT m -> pres RT m.
Proof. intros P s. destruct (P s) as (_ & _ & H & _). unfold RT. rewrite H. apply starts_with_refl. Qed.
Lemma rt_create E mt mk : pres GT mk -> pres RT (create_handshake13 E mt mk).
Proof. intros P s. pose proof (create_msg E mt mk s P) as W. unfold wp in W. destruct W as [[(_ & _ & W) _] _]. exact W. Qed.
Lemma rt_next a b w : pres RT (next_handshake13_gen a b w).
Proof.
  intros s. pose proof (next_msg a b w s) as W. unfold wp in W. destruct (next_handshake13_gen a b w s) as [r e]. cbn [fst snd] in *.
  destruct r as [[m|]|x|n].
  - destruct W as (_ & _ & _ & W & _). eexists. exact W.
  - destruct W as (_ & _ & W & _). unfold RT. rewrite W. apply starts_with_refl.
  - destruct W as (_ & _ & W & _). unfold RT. rewrite W. apply starts_with_refl.
  - destruct W as (_ & _ & W & _). unfold RT. rewrite W. apply starts_with_refl.
Qed.
Lemma rt_derive_app E hs : pres RT (derive_application_secrets E hs).
Proof. intros s. pose proof (derive_app_spec E hs s) as W. unfold wp in W. destruct W as (_ & W & _). unfold RT. rewrite W. apply starts_with_refl. Qed.
Lemma gt_sh13 a b c d e : pres GT (create_server_hello13 a b c d e).
Proof. intros s. unfold create_server_hello13, bind, get. destruct (g_suite s); [|apply GT_po]. destruct (_ || _); apply GT_po. Qed.
Ltac gtl E := first [apply (op_derive_hs E _ GT_po) | apply (op_verify_data E _ GT_po) | apply (op_transcript_hash E _ GT_po) | apply gt_keying
  | apply (fr_check_cv13 E _ GT_po) | apply (fr_create_cert13 _ GT_po) | apply gt_sh13 | apply gt_create_cv | apply pres_ret, GT_po
  | apply gt_begin | apply gt_needs | apply gt_advance | apply gt_install_hs | apply gt_install_app | apply gt_enable | apply gt_release
  | apply gt_release_ret | apply gt_update_recv | apply gt_send_ack | apply gt_send_ack_ret | apply gt_stop | apply gt_cancel | apply gt_abort
  | apply gt_key_update | apply gt_cipher | apply gt_parse | apply gt_timeout | apply gt_poll].
Ltac rtl E := first [apply rt_next | apply rt_derive_app | (apply rt_create; gtl E) | (apply rt_gt; gtl E)].
Lemma rt_step E st : st <> ST_AwaitClientHello -> pres RTy (y_step E st).
Proof.
  intros H. pose proof RTy_po as PY.
  destruct st; try congruence; cbn [y_step]; unfold y_send_server_hello, y_send_encrypted_extensions,
      y_send_certificate_request, y_send_certificate, y_send_certificate_verify, y_send_finished,
      y_await_certificate, y_await_certificate_verify, y_await_finished, y_await_application_data,
      y_half_closed_local, next_handshake13, next_handshake13_no_transcript;
    presauto PY ltac:(first [ (apply rt_yeng; rtl E) | (apply pres_modify; intros ?; split; [reflexivity|apply starts_with_refl])]).
Qed.

(** The states a step leads to. *)
Lemma no_await E st : st <> ST_AwaitClientHello -> rets (fun st' => st' <> ST_AwaitClientHello) (y_step E st).
Proof.
  intros H. destruct st; try congruence; cbn [y_step]; unfold y_send_server_hello, y_send_encrypted_extensions,
      y_send_certificate_request, y_send_certificate, y_send_certificate_verify, y_send_finished,
      y_await_certificate, y_await_certificate_verify, y_await_finished, y_await_application_data,
      y_half_closed_local; rets ltac:(repeat match goal with |- context [if ?b then _ else _] => destruct b end; discriminate).
Qed.

(** ** Histories *)
Definition cookie_seen13 (E : Env) (c : Server13) : Prop :=
  exists before raw auto hello mac, has13 (g_transcript (xs_eng c)) before MT_ClientHello raw /\
    p_ch13 auto raw = Some (hello, []) /\ lists13 hello X_COOKIE p_cookie_ext mac /\
    e_hmac E H_SHA256 (xs_secret c) (h_random hello) = Some mac.
Lemma seen_keep E a b : RTy a b -> cookie_seen13 E a -> cookie_seen13 E b.
Proof.
  intros [K1 K2] (before & raw & auto & hello & mac & H1 & H2 & H3 & H4). exists before, raw, auto, hello, mac.
  split; [eapply has13_grow; eassumption|]. rewrite K1. auto.
Qed.

Section Cookie.
Variables (E : Env) (cfg : Config).
Hypothesis Hck : c_cookie cfg = true.

Definition JC (os : list Output) (c : Server13) : Prop :=
  (xs_state c <> ST_AwaitClientHello /\ cookie_seen13 E c) \/
  (HW (xs_eng c) /\ Forall hrr_datagram (datagrams os) /\
   (xs_state c = ST_AwaitClientHello /\ yfacts E cfg 0 c \/ xs_state c = ST_Closed)).

Lemma jc_keep os a b : xs_state b = xs_state a -> RTy a b -> RWy a b -> KZ a b -> JC os a -> JC os b.
Proof.
  intros Hs K1 K2 K3 [[H1 H2]|(H1 & H2 & H3)]; [left; rewrite Hs; split; [exact H1|eapply seen_keep; eassumption]|right].
  split; [apply K2, H1|]. split; [exact H2|]. rewrite Hs. destruct H3 as [[H3 H4]|H3]; [left|right; exact H3].
  split; [exact H3|eapply yfacts_early; eassumption].
Qed.
Lemma jc_eng {A} (m : M Eng13 A) os c : pres GT m -> pres RW m -> JC os c -> JC os (snd (yeng m c)).
Proof.
  intros P Q. pose proof (rt_yeng m (rt_gt m P) c) as K1. pose proof (hw_yeng m Q c) as K2. pose proof (P (xs_eng c)) as (K3 & _).
  unfold yeng, zoom in *. destruct (m (xs_eng c)) as [r e]. cbn [snd] in *. apply jc_keep; [reflexivity|exact K1|exact K2|].
  repeat split. exact K3.
Qed.
Lemma jc_set f os c : (xs_state (f c) = xs_state c /\ xs_secret (f c) = xs_secret c /\ xs_eng (f c) = xs_eng c /\ xs_srtp (f c) = xs_srtp c /\
  xs_certs (f c) = xs_certs c /\ xs_events (f c) = xs_events c) -> JC os c -> JC os (f c).
Proof.
  intros (H1 & H2 & H3 & H4 & H5 & H6). apply jc_keep; [exact H1|split; [exact H2|unfold RT; rewrite H3; apply starts_with_refl]|unfold RWy; rewrite H3; apply RW_po|].
  unfold KZ. rewrite H3. repeat split; assumption.
Qed.
Lemma jc_start os c now : JC os c -> JC os (draw_random13s E (set_xs_now now c)).
Proof.
  intros J. assert (J1 : JC os (set_xs_now now c)) by (apply (jc_set (set_xs_now now)); [repeat split|exact J]).
  revert J1. generalize (set_xs_now now c) as d. intros d J1. unfold draw_random13s. destruct (xs_random d); [exact J1|].
  unfold bind. assert (P : pres GT (rand_bytes13 E 32)) by (unfold rand_bytes13; presauto GT_po ltac:(first [apply gt_draw|idtac])).
  assert (Q : pres RW (rand_bytes13 E 32)) by (unfold rand_bytes13; presauto RW_po ltac:(first [apply hw_draw|idtac])).
  pose proof (jc_eng (rand_bytes13 E 32) os d P Q J1) as K.
  destruct (yeng (rand_bytes13 E 32) d) as [[v|e|n] d']; cbn [snd modify] in *; try exact K.
  apply (jc_set (set_xs_random (Some v))); [repeat split|exact K].
Qed.
Lemma jc_step os c r c' : JC os c -> y_step E (xs_state c) c = (r, c') ->
  match r with Ok st => JC os (set_xs_state st c') | _ => JC os c' end.
Proof.
  intros J Hs. pose proof (y_step_state E (xs_state c) c) as Kst. rewrite Hs in Kst. cbn [snd] in Kst. symmetry in Kst.
  assert (St : forall st, cookie_seen13 E c' -> cookie_seen13 E (set_xs_state st c')) by (intros st X; exact X).
  destruct J as [[H1 H2]|(H1 & H2 & [[H3 H4]|H3])].
  - pose proof (rt_step E _ H1 c) as K. pose proof (no_await E _ H1 c) as W. rewrite Hs in K, W. cbn [fst snd] in K, W.
    pose proof (seen_keep E _ _ K H2) as S. destruct r as [st|x|n]; left; cbn [xs_state set_xs_state]; [|rewrite Kst..]; auto.
  - rewrite H3 in Hs. cbn [y_step] in Hs. pose proof (hw_await E c) as W. pose proof (await_result E c) as R. pose proof (step_await_client_hello E cfg c H3 H4) as P.
    unfold wp in P, R. rewrite Hs in W, P, R. cbn [fst snd] in W, P, R. specialize (W H1). destruct P as [_ P].
    destruct r as [st|x|n].
    + destruct P as (P & _). destruct R as [-> |[-> R]].
      * right. split; [exact W|]. split; [exact H2|]. left. split; [reflexivity|]. cbn [yr] in P. destruct P; split; auto.
      * left. split; [discriminate|]. apply St. destruct (xs_shared c') as [sh|] eqn:Hsh; [|congruence].
        destruct (yk_shared _ _ _ _ P eq_refl _ Hsh) as (cs & g & _ & Q).
        destruct Q as (before & raw & auto & h & l & peer & t & kx & Q1 & Q2 & _ & _ & _ & _ & _ & _ & _ & _ & _ & _ & _ & Q3).
        destruct (Q3 Hck) as (mac & M1 & M2). exists before, raw, auto, h, mac. auto.
    + right. split; [exact W|]. split; [exact H2|]. left. rewrite Kst. split; [exact H3|]. rewrite H3 in P. apply P.
    + right. split; [exact W|]. split; [exact H2|]. left. rewrite Kst. split; [exact H3|]. rewrite H3 in P. apply P.
  - rewrite H3 in Hs. cbn [y_step] in Hs. injection Hs as <- <-. right. split; [exact H1|]. split; [exact H2|]. right. reflexivity.
Qed.
Lemma jc_poll cap os c r c' : JC os c -> server13_poll_output cap c = (r, c') -> JC (os ++ out_of r) c'.
Proof.
  intros J Hp. unfold server13_poll_output, bind, get in Hp. destruct (xs_events c) as [|ev l] eqn:He.
  - assert (J' : JC os c').
    { pose proof (jc_eng (eng13_poll_output cap (xs_now c)) os c (gt_poll cap (xs_now c)) (unPres _ _ (kf_poll _ _ (hw_frame E) cap (xs_now c))) J) as J'.
      rewrite Hp in J'. exact J'. }
    destruct J as [[J1 J2]|(J1 & J2 & J3)].
    + left. pose proof (rt_yeng _ (rt_gt _ (gt_poll cap (xs_now c))) c) as K. rewrite Hp in K. split; [|eapply seen_keep; eassumption].
      unfold yeng, zoom in Hp. destruct (eng13_poll_output _ _ _). injection Hp as _ <-. exact J1.
    + destruct J' as [J'|(H1 & H2 & H3)]; [left; exact J'|right]. split; [exact H1|]. split; [|exact H3].
      rewrite datagrams_app. apply Forall_app. split; [exact H2|].
      pose proof (poll_shape cap (xs_now c) (xs_eng c)) as W. unfold wp in W. unfold yeng, zoom in Hp.
      destruct (eng13_poll_output _ _ _) as [r0 e0]. injection Hp as -> _. cbn [fst snd] in W. destruct W as (x & v & d & b & _ & W).
      destruct r as [[p|n|t| |y|m p|p|]|y|n]; try constructor; [|constructor]. destruct J1 as (_ & J1 & _). rewrite W in J1. inversion J1; assumption.
  - unfold modify in Hp. destruct (event_no_packet _ _ _ _ _ _ _ Hp) as [-> Hn].
    destruct J as [J|(J1 & J2 & J3)]; [left; exact J|right]. split; [exact J1|]. rewrite datagrams_app, Hn, app_nil_r. split; [exact J2|].
    destruct J3 as [[J3 J4]|J3]; [left|right; exact J3]. split; [exact J3|]. destruct J4; split; auto.
Qed.
Lemma jc_send d os c : JC os c -> JC os (snd (server13_send E d c)).
Proof.
  intros J. unfold server13_send, bind, get. destruct (xs_state c); try exact J;
    try (apply (jc_set (fun s => set_xs_queued (xs_queued s ++ [d]) s)); [repeat split|exact J]).
  apply jc_eng; [apply gt_cipher|apply hw_cipher|exact J].
Qed.
Lemma jc_closed st os c : st = ST_Closed \/ st = ST_HalfClosedLocal /\ xs_state c <> ST_AwaitClientHello /\ xs_state c <> ST_Closed ->
  JC os c -> JC os (set_xs_state st c).
Proof.
  intros H [[H1 H2]|(H1 & H2 & H3)].
  - left. split; [destruct H as [-> |[-> _]]; discriminate|exact H2].
  - right. split; [exact H1|]. split; [exact H2|]. destruct H as [-> |(_ & N1 & N2)]; [right; reflexivity|].
    exfalso. destruct H3 as [[H3 _]|H3]; contradiction.
Qed.
Lemma yeng_state {A} (m : M Eng13 A) c : xs_state (snd (yeng m c)) = xs_state c.
Proof. unfold yeng, zoom. destruct (m (xs_eng c)). reflexivity. Qed.
Lemma jc_close os c : JC os c -> JC os (snd (server13_close E c)).
Proof.
  intros J. unfold server13_close. unfold bind at 1, get at 1.
  assert (A : JC os (snd ((yeng eng13_abort ;;; modify (set_xs_state ST_Closed)) c))).
  { unfold bind. pose proof (jc_eng eng13_abort os c gt_abort hw_abort J) as K. destruct (yeng eng13_abort c) as [[v|e|n] d']; try exact K.
    apply jc_closed; [left; reflexivity|exact K]. }
  destruct (xs_state c) eqn:Hs; try exact A; try exact J.
  unfold bind. pose proof (jc_eng _ os c (gt_cipher E CT_ALERT (g_epoch (xs_eng c)) false [1; 0]) (hw_cipher E CT_ALERT (g_epoch (xs_eng c)) [1; 0]) J) as K.
  pose proof (yeng_state (create_cipher13 E CT_ALERT (g_epoch (xs_eng c)) false [1; 0]) c) as S1.
  destruct (yeng (create_cipher13 E CT_ALERT (g_epoch (xs_eng c)) false [1; 0]) c) as [[v|e|n] d']; try exact K.
  cbn [snd] in K, S1. pose proof (jc_eng _ os d' gt_cancel hw_cancel K) as K2. pose proof (yeng_state cancel_flights d') as S2.
  destruct (yeng cancel_flights d') as [[v2|e|n] d2]; try exact K2.
  cbn [snd] in K2, S2. apply jc_closed; [right|exact K2]. split; [reflexivity|]. rewrite S2, S1, Hs. split; discriminate.
Qed.

Lemma jc_history c0 h s : JC [] c0 -> history13 E (XS c0) h s -> exists c, s = XS c /\ JC (outputs h) c.
Proof.
  intros H0 H. apply (bo_history E JC) with (c0 := c0); auto.
  - intros. apply jc_eng; [apply gt_parse|apply (unPres _ _ (kf_parse _ _ (hw_frame E) p))|assumption].
  - intros. apply jc_start; assumption.
  - intros. apply jc_eng; [apply gt_timeout|apply hw_timeout|assumption].
  - intros v os c J. apply (jc_set (set_xs_auto v)); [repeat split|exact J].
  - intros v os c J. apply (jc_set (set_xs_hellos v)); [repeat split|exact J].
  - intros. eapply jc_step; eassumption.
  - intros. eapply jc_poll; eassumption.
  - intros. apply jc_send; assumption.
  - intros. apply jc_close; assumption.
Qed.
End Cookie.

Lemma fresh13_nothing E cfg cert key s : fresh13 E cfg cert key s -> HW (end13_eng s).
Proof.
  intros H. apply fresh13_eng in H. destruct H as ((b & n & ->) & _). split; [repeat split|split; constructor].
Qed.
Lemma nothing_before_cookie13 E cfg cert key h c : reach13 E cfg cert key h (XS c) -> c_cookie cfg = true ->
  cookie_seen13 E c \/ Forall hrr_datagram (datagrams (outputs h) ++ g_tx (xs_eng c)).
Proof.
  intros (s0 & Hs & Hh) Hck. assert (K : forall d h0 s', history13 E (XC d) h0 s' -> exists d', s' = XC d').
  { intros d h0 s' H. clear Hh. induction H as [|h0 s1 k r s2 H IH NP C]; [eauto|].
    destruct IH as (d' & ->). cbn [end13_call] in C. destruct (client13_call E k d') as [r' d'']. injection C as _ <-. eauto. }
  destruct Hs as [s0 Hf|random fragment kx now c0 Hc]; [|destruct (K _ _ _ Hh) as (d' & Hd); discriminate].
  destruct s0 as [c0|c0]; [destruct (K _ _ _ Hh) as (d' & Hd); discriminate|].
  pose proof (fresh13_nothing _ _ _ _ _ Hf) as Hw. apply fresh13_shape in Hf. destruct Hf as (F1 & F2 & F3 & F4 & F5 & F6 & F7).
  destruct (jc_history E cfg Hck c0 h (XS c)) as (c1 & [= <-] & J); [|exact Hh|].
  - right. split; [exact Hw|]. split; [constructor|]. left. split; [exact F3|]. split; try lia; auto.
  - destruct J as [[_ J]|(J1 & J2 & _)]; [left; exact J|right]. apply Forall_app. split; [exact J2|apply J1].
Qed.
