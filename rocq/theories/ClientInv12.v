(** The invariant of the DTLS 1.2 client: what holds in each state, after any
    calls. *)
From Coq Require Import String.
From Verif Require Import Prelude PreludeFacts Types Codec Codec12 Record12 Env Config Prf Context12 Monad MonadFacts
  Timer Window Engine12 Client12 Server12 Engine12Frame History12 History12Facts EndFrame12 View12
  Evidence12.
Close Scope string_scope.

(** ** Evidence is kept when the transcript grows *)

Lemma be3_u32 n : be 3 (u32 n) = be 3 n.
Proof.
  assert (K : forall x, be 3 x = be 3 (x mod 256 ^ 3)).
  { intro x. rewrite <- (unbe_be 3). symmetry.
    rewrite <- (be_length 3 x) at 1. apply be_unbe, be_ok. }
  rewrite (K n), (K (u32 n)). unfold u32. f_equal. change (256 ^ 3) with (2 ^ 24).
  rewrite <- (N.mod_mod n (2^24)) by discriminate.
  Z.to_euclidean_division_equations; lia.
Qed.

Lemma hs_msg_tmsg mt seq raw : hs_msg mt seq raw = tmsg mt seq raw.
Proof. unfold hs_msg, tmsg, s_hs_header. rewrite <- !app_assoc. reflexivity. Qed.
Lemma own_msg_tmsg mt seq body :
  s_hs_header mt (u32 (len body)) seq 0 (u32 (len body)) ++ body = tmsg mt seq body.
Proof. unfold tmsg, s_hs_header. rewrite !be3_u32, <- !app_assoc. reflexivity. Qed.

Lemma has_msg_grow T T' before mt body : starts_with T' T -> has_msg T before mt body ->
  has_msg T' before mt body.
Proof.
  intros [x ->] (seq & after & ->). exists seq, (after ++ x). rewrite <- !app_assoc. reflexivity.
Qed.
Lemma has_msg_last T mt seq body : has_msg (T ++ tmsg mt seq body) T mt body.
Proof. exists seq, []. rewrite app_nil_r. reflexivity. Qed.
Lemma starts_with_refl T : starts_with T T.
Proof. exists []. rewrite app_nil_r. reflexivity. Qed.
Lemma starts_with_trans A B C : starts_with A B -> starts_with B C -> starts_with A C.
Proof. intros [x ->] [y ->]. exists (y ++ x). rewrite <- app_assoc. reflexivity. Qed.
Lemma starts_with_app T x : starts_with (T ++ x) T.
Proof. exists x. reflexivity. Qed.

Lemma finished_grow E T T' ms cs b : starts_with T' T -> finished_ok E T ms cs b ->
  finished_ok E T' ms cs b.
Proof. intros H (be & vd & rest & H1 & H2). exists be, vd, rest. eauto using has_msg_grow. Qed.
Lemma master_grow E T T' pms ms cs : starts_with T' T -> master_ok E T pms ms cs ->
  master_ok E T' pms ms cs.
Proof.
  intros H (be & cke & seq & H1 & H2). exists be, cke, seq. eauto using starts_with_trans.
Qed.
Lemma server_hello_grow T T' h es : starts_with T' T -> server_hello_ok T h es ->
  server_hello_ok T' h es.
Proof. intros H (be & raw & rest & H1 & H2). exists be, raw, rest. eauto using has_msg_grow. Qed.
Lemma certificates_grow T T' cs : starts_with T' T -> certificates_ok T cs -> certificates_ok T' cs.
Proof. intros H (be & raw & rest & H1 & H2). exists be, raw, rest. eauto using has_msg_grow. Qed.
Lemma signature_grow E T T' a b c d e : starts_with T' T -> server_signature_ok E T a b c d e ->
  server_signature_ok E T' a b c d e.
Proof.
  intros H (b1 & b2 & b3 & b4 & b5 & b6 & b7 & b8 & b9 & b10 & b11 & H1 & H2).
  exists b1, b2, b3, b4, b5, b6, b7, b8, b9, b10, b11. eauto using has_msg_grow.
Qed.

(** ** Timers and the release of application data, by state *)

Definition running (t : Timeout) : Prop := t <> Disabled.
Definition unfinished (e : Eng12) : Prop :=
  running (en_connect e) /\ running (en_flight e) /\ en_release e = false.
Definition stopped (e : Eng12) : Prop := en_connect e = Disabled /\ en_flight e = Disabled.

Definition c_rank (st : CState12) : N :=
  match st with
  | CS_SendClientHello => 0 | CS_AwaitHelloVerifyRequest => 1 | CS_AwaitServerHello => 2
  | CS_AwaitCertificate => 3 | CS_AwaitServerKeyExchange => 4 | CS_AwaitCertificateRequest => 5
  | CS_AwaitServerHelloDone => 6 | CS_SendCertificate => 7 | CS_SendClientKeyExchange => 8
  | CS_SendCertificateVerify => 9 | CS_SendChangeCipherSpec => 10 | CS_SendFinished => 11
  | CS_AwaitChangeCipherSpec => 12 | CS_AwaitNewSessionTicket => 13 | CS_AwaitFinished => 14
  | CS_AwaitApplicationData => 15 | CS_Closed => 16
  end.

(** How far the handshake got: a closed connection is past the handshake only if
    application data had been released. *)
Definition phase (st : CState12) (e : Eng12) : N :=
  match st with CS_Closed => if en_release e then 16 else 0 | _ => c_rank st end.

Definition timers_c (st : CState12) (e : Eng12) : Prop :=
  match st with
  | CS_Closed => stopped e
  | CS_AwaitApplicationData => stopped e /\ en_release e = true
  | _ => unfinished e
  end.

(** ** The facts *)
Section Facts.
Variable E : Env.

Definition c_T (c : Client12) : bytes := en_transcript (cl_eng c).
Definition c_psk (c : Client12) : bool :=
  match en_suite (cl_eng c) with Some cs => suite12_is_psk cs | None => false end.

Definition hello_fact (c : Client12) : Prop :=
  exists h es, server_hello_ok (c_T c) h es /\ en_suite (cl_eng c) = Some (sh_suite h) /\
    cl_srandom c = Some (sh_random h) /\
    In (sh_suite h) (cfg_suites12 E (en_cfg (cl_eng c))) /\
    In (sh_suite h) suites12_supported /\
    suite_compatible (k_auth (en_crypto (cl_eng c))) (sh_suite h) = true /\
    In X_EMS (map fst es).

Definition srtp_fact (c : Client12) : Prop :=
  match cl_srtp c with Some p => In p srtp_known | None => True end.

Definition cert_fact (c : Client12) : Prop := cl_certs c <> [] /\ certificates_ok (c_T c) (cl_certs c).

(** Where the pre-master secret comes from. *)
Definition source_fact (c : Client12) (pms : bytes) : Prop :=
  if c_psk c then
    exists identity resolve psk, cfg_identity (en_cfg (cl_eng c)) = Some identity /\
      cfg_resolver (en_cfg (cl_eng c)) = Some resolve /\ resolve identity = Some psk /\
      pms = psk_premaster psk
  else
    exists leaf more cr sr cs, cl_certs c = leaf :: more /\ cl_random c = Some cr /\
      cl_srandom c = Some sr /\ en_suite (cl_eng c) = Some cs /\
      server_signature_ok E (c_T c) leaf cr sr cs pms.

Definition ms_fact (c : Client12) (pms : bytes) : Prop :=
  exists ms cs, k_ms (en_crypto (cl_eng c)) = Some ms /\ en_suite (cl_eng c) = Some cs /\
    master_ok E (c_T c) pms ms cs.
Definition pms_held (c : Client12) (pms : bytes) : Prop :=
  k_pms (en_crypto (cl_eng c)) = Some pms.
Definition secret_fact (n : N) (c : Client12) (pms : bytes) : Prop :=
  if n <? 10 then pms_held c pms
  else if n <? 11 then pms_held c pms \/ k_pms (en_crypto (cl_eng c)) = None /\ ms_fact c pms
  else ms_fact c pms.

Definition hash_fact (c : Client12) : Prop :=
  exists before cke seq cs, en_suite (cl_eng c) = Some cs /\
    starts_with (c_T c) (before ++ tmsg MT_ClientKeyExchange seq cke) /\
    cl_sh c = Some (e_hash E (suite12_hash cs) (before ++ tmsg MT_ClientKeyExchange seq cke)).

Definition fin_fact (c : Client12) : Prop :=
  exists ms cs, k_ms (en_crypto (cl_eng c)) = Some ms /\ en_suite (cl_eng c) = Some cs /\
    finished_ok E (c_T c) ms cs false.

Record facts_c (n : N) (c : Client12) : Prop := {
  f_client : en_client (cl_eng c) = true;
  f_srtp : srtp_fact c;
  f_random : 1 <= n -> cl_random c <> None;
  f_hello : 3 <= n -> hello_fact c;
  f_cert : 4 <= n -> c_psk c = false -> cert_fact c;
  f_secret : 5 <= n -> (c_psk c = false \/ 9 <= n) ->
    exists pms, source_fact c pms /\ secret_fact n c pms;
  f_hash : 9 <= n -> n <= 10 -> hash_fact c;
  f_fin : 15 <= n -> fin_fact c }.

Definition inv_c (st : CState12) (c : Client12) : Prop :=
  (timers_c st (cl_eng c) /\ (c_rank st <= 3 -> cl_certs c = [])) /\
  facts_c (phase st (cl_eng c)) c.

(** What a step in state number [n] may change. *)
Record keeps_c (n : N) (c c' : Client12) : Prop := {
  kp_cfg : en_cfg (cl_eng c') = en_cfg (cl_eng c);
  kp_client : en_client (cl_eng c') = en_client (cl_eng c);
  kp_auth : k_auth (en_crypto (cl_eng c')) = k_auth (en_crypto (cl_eng c));
  kp_random : cl_random c' = cl_random c;
  kp_T : 2 <= n -> starts_with (c_T c') (c_T c);
  kp_suite : 3 <= n -> en_suite (cl_eng c') = en_suite (cl_eng c);
  kp_srandom : 3 <= n -> cl_srandom c' = cl_srandom c;
  kp_srtp : 3 <= n -> cl_srtp c' = cl_srtp c;
  kp_srtp2 : srtp_fact c -> srtp_fact c';
  kp_certs : n <> 3 -> cl_certs c' = cl_certs c;
  kp_sh : n <> 8 -> cl_sh c' = cl_sh c;
  kp_crypto : n <> 4 -> n <> 8 -> n <> 10 -> en_crypto (cl_eng c') = en_crypto (cl_eng c);
  kp_pms8 : n = 8 -> c_psk c = false -> k_pms (en_crypto (cl_eng c')) = k_pms (en_crypto (cl_eng c));
  kp_sec10 : n = 10 -> forall pms, hash_fact c -> secret_fact 10 c pms -> secret_fact 10 c' pms }.

Lemma psk_kept n c c' : keeps_c n c c' -> 3 <= n -> c_psk c' = c_psk c.
Proof. intros K H. unfold c_psk. rewrite (kp_suite _ _ _ K H). reflexivity. Qed.

Lemma facts_kept n c c' : n <> 16 \/ n = 16 -> keeps_c n c c' -> facts_c n c -> facts_c n c'.
Proof.
  intros _ K F. destruct F. constructor.
  - rewrite (kp_client _ _ _ K). assumption.
  - apply (kp_srtp2 _ _ _ K). assumption.
  - rewrite (kp_random _ _ _ K). assumption.
  - intro H. destruct (f_hello0 H) as (h & es & H1 & H2 & H3 & H4 & H5 & H6 & H7).
    exists h, es. rewrite (kp_suite _ _ _ K), (kp_srandom _ _ _ K), (kp_cfg _ _ _ K), (kp_auth _ _ _ K) by assumption.
    repeat (split; [first [assumption | eapply server_hello_grow; [apply (kp_T _ _ _ K); lia|eassumption]]|]).
    assumption.
  - intros H Hp. rewrite (psk_kept _ _ _ K) in Hp by lia. destruct (f_cert0 H Hp) as [H1 H2].
    split; rewrite (kp_certs _ _ _ K) by lia; [exact H1|].
    eapply certificates_grow; [apply (kp_T _ _ _ K); lia|exact H2].
  - intros H Hp. rewrite (psk_kept _ _ _ K) in Hp by lia.
    destruct (f_secret0 H Hp) as (pms & H1 & H2). exists pms. split.
    + unfold source_fact in *. rewrite (psk_kept _ _ _ K) by lia.
      rewrite (kp_cfg _ _ _ K), (kp_certs _ _ _ K), (kp_random _ _ _ K), (kp_srandom _ _ _ K), (kp_suite _ _ _ K) by lia.
      destruct (c_psk c); [exact H1|].
      destruct H1 as (leaf & more & cr & sr & cs & H1 & H3 & H4 & H5 & H6).
      exists leaf, more, cr, sr, cs. repeat (split; [assumption|]).
      eapply signature_grow; [apply (kp_T _ _ _ K); lia|exact H6].
    + destruct (N.eq_dec n 10) as [->|].
      { apply (kp_sec10 _ _ _ K eq_refl); [apply f_hash0; lia|exact H2]. }
      unfold secret_fact in *. replace (n <? 11) with (n <? 10) in * by lia.
      destruct (n <? 10) eqn:Hn.
      * unfold pms_held in *. destruct (N.eq_dec n 8) as [->|].
        { rewrite (kp_pms8 _ _ _ K eq_refl); [exact H2|]. destruct Hp as [Hp|Hp]; [exact Hp|lia]. }
        rewrite (kp_crypto _ _ _ K) by lia. exact H2.
      * destruct H2 as (ms & cs & H2 & H3 & H4). exists ms, cs.
        rewrite (kp_crypto _ _ _ K), (kp_suite _ _ _ K) by lia. repeat (split; [assumption|]).
        eapply master_grow; [apply (kp_T _ _ _ K); lia|exact H4].
  - intros H H'. destruct (f_hash0 H H') as (be & cke & seq & cs & H1 & H2 & H3).
    exists be, cke, seq, cs. rewrite (kp_suite _ _ _ K), (kp_sh _ _ _ K) by lia.
    repeat (split; [first [assumption | eapply starts_with_trans; [apply (kp_T _ _ _ K); lia|exact H2]]|]).
    assumption.
  - intros H. destruct (f_fin0 H) as (ms & cs & H1 & H2 & H3). exists ms, cs.
    rewrite (kp_crypto _ _ _ K), (kp_suite _ _ _ K) by lia. repeat (split; [assumption|]).
    eapply finished_grow; [apply (kp_T _ _ _ K); lia|exact H3].
Qed.
End Facts.
