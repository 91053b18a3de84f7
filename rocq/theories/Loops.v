(** The loops of the implementation end: what the fuel of the model stands for. *)
From Verif Require Import Prelude PreludeFacts Types Codec Codec12 Codec13 Record12 Record13 Monad MonadFacts Timer Env Config Engine12 Client12 Server12
  Engine13 Client13 Server13 Send12Proofs Send13Proofs Tx12Proofs Index13 Mtu12 Mtu13.

(** A loop without fuel: the round [body] is repeated until it returns [true] or fails. *)
Inductive repeats {S} (body : M S bool) : S -> res unit * S -> Prop :=
| rp_done s s' : body s = (Ok true, s') -> repeats body s (Ok tt, s')
| rp_again s s' x : body s = (Ok false, s') -> repeats body s' x -> repeats body s x
| rp_err s s' e : body s = (Err e, s') -> repeats body s (Err e, s')
| rp_panic s s' n : body s = (Panic n, s') -> repeats body s (Panic n, s').

(** A measure that goes down in every round. *)
Lemma repeats_by {S} (body : M S bool) (loop : nat -> M S unit) (rank : S -> nat) top :
  (forall n s, loop (Datatypes.S n) s = match body s with
     | (Ok true, s') => (Ok tt, s') | (Ok false, s') => loop n s' | (Err e, s') => (Err e, s') | (Panic k, s') => (Panic k, s') end) ->
  (forall s s', body s = (Ok false, s') -> (rank s < rank s' <= top)%nat) ->
  forall n s, (rank s <= top)%nat -> (top - rank s < n)%nat -> repeats body s (loop n s).
Proof.
  intros Hl Hr. induction n as [|n IH]; intros s Ht Hn; [lia|]. rewrite Hl. destruct (body s) as [[[|]|e|k] s'] eqn:Hb.
  - apply rp_done, Hb.
  - destruct (Hr _ _ Hb) as [R1 R2]. eapply rp_again; [exact Hb|]. apply IH; lia.
  - apply rp_err, Hb.
  - apply rp_panic, Hb.
Qed.

(** ** The state machines *)
(** One round of make_progress: one state is processed; [true] when it did not change. *)
Definition round12c (E : Env) : M Client12 bool :=
  let! c := get in let! st := c_step E (cl_state c) in
  if cstate12_eqb (cl_state c) st then ret true else modify (set_cl_state st) ;;; ret false.
Definition round12s (E : Env) : M Server12 bool :=
  let! c := get in let! st := s_step E (sv_state c) in
  if sstate12_eqb (sv_state c) st then ret true else modify (set_sv_state st) ;;; ret false.
Definition round13c (E : Env) : M Client13 bool :=
  let! c := get in let! st := x_step E (xc_state c) in
  if cstate13_eqb (xc_state c) st then ret true else modify (set_xc_state st) ;;; ret false.
Definition round13s (E : Env) : M Server13 bool :=
  let! c := get in let! st := y_step E (xs_state c) in
  if sstate13_eqb (xs_state c) st then ret true else modify (set_xs_state st) ;;; ret false.

Definition idx12c (st : CState12) : nat :=
  match st with
  | CS_SendClientHello => 0 | CS_AwaitHelloVerifyRequest => 1 | CS_AwaitServerHello => 3 | CS_AwaitCertificate => 4
  | CS_AwaitServerKeyExchange => 5 | CS_AwaitCertificateRequest => 6 | CS_AwaitServerHelloDone => 7
  | CS_SendCertificate => 8 | CS_SendClientKeyExchange => 9 | CS_SendCertificateVerify => 10
  | CS_SendChangeCipherSpec => 11 | CS_SendFinished => 12 | CS_AwaitChangeCipherSpec => 13
  | CS_AwaitNewSessionTicket => 14 | CS_AwaitFinished => 15 | CS_AwaitApplicationData => 16 | CS_Closed => 17
  end.
Definition idx12s (st : SState12) : nat :=
  match st with
  | SS_AwaitClientHello => 0 | SS_SendServerHello => 1 | SS_SendCertificate => 2 | SS_SendServerKeyExchange => 3
  | SS_SendCertificateRequest => 4 | SS_SendServerHelloDone => 5 | SS_AwaitCertificate => 6
  | SS_AwaitClientKeyExchange => 7 | SS_AwaitCertificateVerify => 8 | SS_AwaitChangeCipherSpec => 9
  | SS_AwaitFinished => 10 | SS_SendChangeCipherSpec => 11 | SS_SendFinished => 12 | SS_AwaitApplicationData => 13
  | SS_Closed => 14
  end.
Definition idx13c (st : CState13) : nat :=
  match st with
  | CT_SendClientHello => 0 | CT_AwaitServerHello => 1 | CT_AwaitEncryptedExtensions => 4
  | CT_AwaitCertificateRequest => 5 | CT_AwaitCertificate => 6 | CT_AwaitCertificateVerify => 7 | CT_AwaitFinished => 8
  | CT_SendCertificate => 9 | CT_SendCertificateVerify => 10 | CT_SendFinished => 11 | CT_AwaitApplicationData => 12
  | CT_HalfClosedLocal => 13 | CT_Closed => 14
  end.
Definition idx13s (st : SState13) : nat :=
  match st with
  | ST_AwaitClientHello => 0 | ST_SendServerHello => 1 | ST_SendEncryptedExtensions => 2
  | ST_SendCertificateRequest => 3 | ST_SendCertificate => 4 | ST_SendCertificateVerify => 5 | ST_SendFinished => 6
  | ST_AwaitCertificate => 7 | ST_AwaitCertificateVerify => 8 | ST_AwaitFinished => 9 | ST_AwaitApplicationData => 10
  | ST_HalfClosedLocal => 11 | ST_Closed => 12
  end.
Ltac forward := repeat match goal with |- context [if ?b then _ else _] => destruct b | |- context [match ?b with _ => _ end] => destruct b end; cbn; lia.

Lemma fwd12s E st : rets (fun st' => (idx12s st <= idx12s st')%nat) (s_step E st).
Proof.
  destruct st; cbn [s_step]; unfold s_await_client_hello, s_send_server_hello, s_send_certificate, s_send_server_key_exchange, s_send_server_key_exchange_psk,
    s_send_certificate_request, s_send_server_hello_done, s_await_certificate, s_await_client_key_exchange, s_await_certificate_verify,
    s_await_change_cipher_spec, s_await_finished, s_send_change_cipher_spec, s_send_finished, s_await_application_data;
    rets ltac:(forward).
Qed.
Lemma fwd13s E st : rets (fun st' => (idx13s st <= idx13s st')%nat) (y_step E st).
Proof.
  destruct st; cbn [y_step]; unfold y_await_client_hello, y_select, y_retry, y_accept_hello, y_send_server_hello, y_send_encrypted_extensions,
      y_send_certificate_request, y_send_certificate, y_send_certificate_verify, y_send_finished,
      y_await_certificate, y_await_certificate_verify, y_await_finished, y_await_application_data,
      y_half_closed_local; rets ltac:(forward).
Qed.
Lemma fwd12c E st : st <> CS_AwaitHelloVerifyRequest -> rets (fun st' => (idx12c st <= idx12c st')%nat) (c_step E st).
Proof.
  intros H. destruct st; try congruence; cbn [c_step]; unfold c_send_client_hello, c_await_server_hello, c_await_certificate, c_await_server_key_exchange, c_await_server_key_exchange_psk, c_await_server_key_exchange_ecdhe,
    c_await_certificate_request, c_await_server_hello_done, c_send_certificate, c_send_client_key_exchange, c_send_certificate_verify,
    c_send_change_cipher_spec, c_send_finished, c_await_change_cipher_spec, c_await_new_session_ticket, c_await_finished, c_await_application_data;
    rets ltac:(forward).
Qed.
Lemma fwd13c E st : st <> CT_AwaitServerHello -> rets (fun st' => (idx13c st <= idx13c st')%nat) (x_step E st).
Proof.
  intros H. destruct st; try congruence; cbn [x_step]; unfold x_send_client_hello, 
      x_await_encrypted_extensions, x_await_certificate_request, x_await_certificate,
      x_await_certificate_verify, x_await_finished, x_send_certificate, x_send_certificate_verify,
      x_send_finished, x_await_application_data, x_half_closed_local; rets ltac:(forward).
Qed.

Definition rank12c (c : Client12) : nat :=
  match cl_state c with
  | CS_SendClientHello => match cl_cookie c with None => 0 | Some _ => 2 end
  | st => idx12c st
  end.
Definition rank13c (c : Client13) : nat :=
  match xc_state c with
  | CT_SendClientHello => if xc_retry c then 2 else 0
  | CT_AwaitServerHello => if xc_retry c then 3 else 1
  | st => idx13c st
  end.
Lemma state12c_ne a b : cstate12_eqb a b = false -> a <> b.
Proof. unfold cstate12_eqb. destruct (cstate12_eq_dec a b); [discriminate|auto]. Qed.
Lemma state12s_ne a b : sstate12_eqb a b = false -> a <> b.
Proof. unfold sstate12_eqb. destruct (sstate12_eq_dec a b); [discriminate|auto]. Qed.
Lemma state13c_ne a b : cstate13_eqb a b = false -> a <> b.
Proof. unfold cstate13_eqb. destruct (cstate13_eq_dec a b); [discriminate|auto]. Qed.
Lemma state13s_ne a b : sstate13_eqb a b = false -> a <> b.
Proof. unfold sstate13_eqb. destruct (sstate13_eq_dec a b); [discriminate|auto]. Qed.

Lemma ends12s E c : repeats (round12s E) c (s_make_progress E c).
Proof.
  apply (repeats_by (round12s E) (s_progress E) (fun c => idx12s (sv_state c)) 14).
  - intros n s. cbn [s_progress]. unfold round12s, bind, get. destruct (s_step E (sv_state s) s) as [[st|e|k] s1]; [|reflexivity..].
    destruct (sstate12_eqb (sv_state s) st); reflexivity.
  - intros s s' H. unfold round12s, bind, get in H. pose proof (fwd12s E (sv_state s) s) as W.
    destruct (s_step E (sv_state s) s) as [[st|e|k] s1]; try discriminate. cbn [fst] in W.
    destruct (sstate12_eqb (sv_state s) st) eqn:He; [discriminate|]. apply state12s_ne in He. cbn [modify ret] in H. injection H as <-. cbn [sv_state set_sv_state].
    destruct (sv_state s), st; try congruence; cbn in W |- *; lia.
  - destruct (sv_state c); cbn; lia.
  - destruct (sv_state c); cbn; lia.
Qed.
Lemma ends13s E c : repeats (round13s E) c (y_make_progress E c).
Proof.
  apply (repeats_by (round13s E) (y_progress E) (fun c => idx13s (xs_state c)) 12).
  - intros n s. cbn [y_progress]. unfold round13s, bind, get. destruct (y_step E (xs_state s) s) as [[st|e|k] s1]; [|reflexivity..].
    destruct (sstate13_eqb (xs_state s) st); reflexivity.
  - intros s s' H. unfold round13s, bind, get in H. pose proof (fwd13s E (xs_state s) s) as W.
    destruct (y_step E (xs_state s) s) as [[st|e|k] s1]; try discriminate. cbn [fst] in W.
    destruct (sstate13_eqb (xs_state s) st) eqn:He; [discriminate|]. apply state13s_ne in He. cbn [modify ret] in H. injection H as <-. cbn [xs_state set_xs_state].
    destruct (xs_state s), st; try congruence; cbn in W |- *; lia.
  - destruct (xs_state c); cbn; lia.
  - destruct (xs_state c); cbn; lia.
Qed.

(** HelloVerifyRequest and HelloRetryRequest lead back once. *)
Lemma await_hvr c : wp c_await_hello_verify_request (fun r c' => match r with
  | Ok st => st = CS_AwaitHelloVerifyRequest \/ st = CS_AwaitServerHello \/ st = CS_SendClientHello /\ cl_cookie c' <> None
  | _ => True end) c.
Proof.
  assert (Z : forall {A} (m : M Eng12 A) (Q : res A -> Client12 -> Prop) d,
    (forall r e, Q r (set_cl_eng e d)) -> wp (ceng m) Q d).
  { intros A m Q d H. apply wp_zoom. unfold wp. apply H. }
  unfold c_await_hello_verify_request. apply wp_bind, wp_get. destruct (has_complete_handshake _ _); [apply wp_ret; auto|].
  apply wp_bind, Z. intros [[m|]|x|n] e; [|left; reflexivity|exact I..]. destruct (m_body m); try exact I. destruct (negb _); [exact I|].
  apply wp_bind, wp_modify, wp_bind, Z. intros [u|x|n] e2; [|exact I..]. apply wp_ret. right. right. split; [reflexivity|discriminate].
Qed.
Lemma send_ch12 E c : wp (c_send_client_hello E) (fun r c' => match r with
  | Ok st => st = match cl_cookie c with None => CS_AwaitHelloVerifyRequest | Some _ => CS_AwaitServerHello end
  | _ => True end) c.
Proof.
  assert (Z : forall {A} (m : M Eng12 A) (Q : res A -> Client12 -> Prop) d,
    (forall r e, Q r (set_cl_eng e d)) -> wp (ceng m) Q d).
  { intros A m Q d H. apply wp_zoom. unfold wp. apply H. }
  unfold c_send_client_hello. apply wp_bind, wp_get. destruct (cl_random c); [|exact I].
  apply wp_bind, Z. intros [u|x|n] e; [|exact I..]. apply wp_bind, Z. intros [u2|x|n] e2; [|exact I..]. apply wp_ret. reflexivity.
Qed.
Lemma ends12c E c : repeats (round12c E) c (c_make_progress E c).
Proof.
  apply (repeats_by (round12c E) (c_progress E) rank12c 17).
  - intros n s. cbn [c_progress]. unfold round12c, bind, get. destruct (c_step E (cl_state s) s) as [[st|e|k] s1]; [|reflexivity..].
    destruct (cstate12_eqb (cl_state s) st); reflexivity.
  - intros s s' H. unfold round12c, bind, get in H.
    assert (W : wp (c_step E (cl_state s)) (fun r c' => match r with Ok st => st = cl_state s \/ (rank12c s < rank12c (set_cl_state st c'))%nat | _ => True end) s).
    { destruct (cl_state s) eqn:Hst; [eapply wp_mono; [apply send_ch12|]|eapply wp_mono; [apply await_hvr|]|..];
        try (match goal with |- wp (c_step E ?st) _ _ => pose proof (fwd12c E st ltac:(discriminate) s) as W end; unfold wp;
          match goal with |- context [c_step E ?st s] => destruct (c_step E st s) as [[st'|e|k] s1] end; cbn [fst snd] in *; try exact I;
          unfold rank12c; rewrite Hst; cbn [cl_state set_cl_state]; destruct st'; cbn in W |- *; first [left; reflexivity | right; lia]).
      - intros [st|x|n] c' K; try exact I. right. unfold rank12c. rewrite Hst. subst st. cbn [cl_state set_cl_state]. destruct (cl_cookie s); cbn; lia.
      - intros [st|x|n] c' K; try exact I. unfold rank12c. rewrite Hst. cbn [cl_state set_cl_state cl_cookie]. destruct K as [-> |[-> |[-> K]]]; cbn; [left; reflexivity|right; lia|right].
        destruct (cl_cookie c'); [lia|congruence]. }
    unfold wp in W. destruct (c_step E (cl_state s) s) as [[st|e|k] s1]; try discriminate. cbn [fst snd] in W.
    destruct (cstate12_eqb (cl_state s) st) eqn:He; [discriminate|]. apply state12c_ne in He. cbn [modify ret] in H. injection H as <-.
    destruct W as [W|W]; [congruence|]. split; [exact W|]. unfold rank12c. cbn [cl_state set_cl_state]. destruct st; cbn; try lia. destruct (cl_cookie _); lia.
  - unfold rank12c. destruct (cl_state c); cbn; try lia. destruct (cl_cookie c); lia.
  - unfold rank12c. destruct (cl_state c); cbn; try lia. destruct (cl_cookie c); lia.
Qed.

Definition RR (a b : Client13) : Prop := xc_retry b = xc_retry a.
Lemma RR_po : preorder RR.
Proof. split; unfold RR; intros; congruence. Qed.
Lemma rr_xeng {A} (m : M Eng13 A) : pres RR (xeng m).
Proof. intros c. unfold xeng, zoom. destruct (m (xc_eng c)). reflexivity. Qed.
Lemma rr_send E : pres RR (x_send_client_hello E).
Proof. unfold x_send_client_hello. presauto RR_po ltac:(first [apply rr_xeng | apply pres_modify; reflexivity]). Qed.
Lemma rr_hrr es : pres RR (hrr_extensions es).
Proof. induction es as [|[t d] es IH]; cbn [hrr_extensions]; presauto RR_po ltac:(first [apply IH | apply rr_xeng | apply pres_modify; reflexivity]). Qed.
Lemma send_ch13 E : rets (fun st => st = CT_AwaitServerHello) (x_send_client_hello E).
Proof. unfold x_send_client_hello. rets ltac:(reflexivity). Qed.
Lemma sh13_next E h : rets (fun st => (4 <= idx13c st)%nat) (x_server_hello E h).
Proof. unfold x_server_hello. rets ltac:(cbn; lia). Qed.
Lemma await_sh13 E c : wp (x_await_server_hello E) (fun r c' => match r with
  | Ok st => st = CT_AwaitServerHello \/ (4 <= idx13c st)%nat \/ st = CT_SendClientHello /\ xc_retry c = false /\ xc_retry c' = true
  | _ => True end) c.
Proof.
  assert (Z : forall {A} (m : M Eng13 A) (Q : res A -> Client13 -> Prop) d,
    (forall r e, Q r (set_xc_eng e d)) -> wp (xeng m) Q d).
  { intros A m Q d H. apply wp_zoom. unfold wp. apply H. }
  unfold x_await_server_hello. apply wp_bind, wp_get, wp_bind, Z. intros [[m|]|x|n] e; [|left; reflexivity|exact I..].
  destruct (n_body m) as [|h| | | | | | |]; try exact I. destruct (is_hrr h).
  - unfold x_hello_retry. apply wp_bind, wp_get. cbn [xc_retry set_xc_eng]. destruct (xc_retry c) eqn:Hr.
    { apply wp_bind, Z. intros [u|x|n] e2; exact I. }
    apply wp_bind. pose proof (rr_hrr (exts_of (sh_exts h)) (set_xc_eng e c)) as _.
    unfold wp at 1. destruct (hrr_extensions _ _) as [[u|x|n] c1]; try exact I. cbn [fst snd].
    destruct (negb _); [exact I|]. apply wp_bind, Z. intros [u2|x|n] e2; [|exact I..]. destruct (negb _); [exact I|].
    apply wp_bind, Z. intros [u3|x|n] e3; [|exact I..]. apply wp_bind, Z. intros [u4|x|n] e4; [|exact I..].
    apply wp_bind, Z. intros [u5|x|n] e5; [|exact I..]. apply wp_bind, wp_modify, wp_bind, wp_modify, wp_ret. right. right. repeat split.
  - pose proof (sh13_next E h (set_xc_eng e c)) as W. unfold wp. destruct (x_server_hello E h _) as [[st|x|n] c1]; try exact I. right. left. exact W.
Qed.
Lemma ends13c E c : repeats (round13c E) c (x_make_progress E c).
Proof.
  apply (repeats_by (round13c E) (x_progress E) rank13c 14).
  - intros n s. cbn [x_progress]. unfold round13c, bind, get. destruct (x_step E (xc_state s) s) as [[st|e|k] s1]; [|reflexivity..].
    destruct (cstate13_eqb (xc_state s) st); reflexivity.
  - intros s s' H. unfold round13c, bind, get in H.
    assert (W : wp (x_step E (xc_state s)) (fun r c' => match r with Ok st => st = xc_state s \/ (rank13c s < rank13c (set_xc_state st c'))%nat | _ => True end) s).
    { destruct (xc_state s) eqn:Hst; [|eapply wp_mono; [apply await_sh13|]|..];
        try (match goal with |- wp (x_step E ?st) _ _ => pose proof (fwd13c E st ltac:(discriminate) s) as W end; unfold wp;
          match goal with |- context [x_step E ?st s] => destruct (x_step E st s) as [[st'|e|k] s1] end; cbn [fst snd] in *; try exact I;
          unfold rank13c; rewrite Hst; cbn [xc_state set_xc_state]; destruct st'; cbn in W |- *; first [left; reflexivity | right; lia]).
      - cbn [x_step]. pose proof (send_ch13 E s) as K. pose proof (rr_send E s) as R. unfold wp. destruct (x_send_client_hello E s) as [[st|x|n] c']; try exact I.
        cbn [fst snd] in *. subst st. right. unfold rank13c. rewrite Hst. cbn [xc_state set_xc_state xc_retry]. red in R. rewrite R. destruct (xc_retry s); lia.
      - intros [st|x|n] c' K; try exact I. unfold rank13c. rewrite Hst. cbn [xc_state set_xc_state xc_retry]. destruct K as [-> |[K|(-> & K1 & K2)]]; [left; reflexivity|right|right].
        + destruct st; cbn in K; try lia; destruct (xc_retry s); cbn; lia.
        + rewrite K1, K2. lia. }
    unfold wp in W. destruct (x_step E (xc_state s) s) as [[st|e|k] s1]; try discriminate. cbn [fst snd] in W.
    destruct (cstate13_eqb (xc_state s) st) eqn:He; [discriminate|]. apply state13c_ne in He. cbn [modify ret] in H. injection H as <-.
    destruct W as [W|W]; [congruence|]. split; [exact W|]. unfold rank13c. cbn [xc_state set_xc_state]. destruct st; cbn; try lia; destruct (xc_retry _); lia.
  - unfold rank13c. destruct (xc_state c); cbn; try lia; destruct (xc_retry c); lia.
  - unfold rank13c. destruct (xc_state c); cbn; try lia; destruct (xc_retry c); lia.
Qed.

(** ** Splitting a datagram into records *)
(** DTLS 1.2: [room] records may still be kept; a record is 13 bytes and what its length
    field says. *)
Definition rec_end12 (p : bytes) : nat := 13 + N.to_nat (unbe (firstn 2 (skipn 11 p))).
Inductive splits12 (E : Env) : nat -> bytes -> Eng12 -> res (list Rec12) * Eng12 -> Prop :=
| sp_end room s : splits12 E room [] s (Ok [], s)
| sp_short room p s : p <> [] -> (length p < 13)%nat \/ (length p < rec_end12 p)%nat -> splits12 E room p s (Err ETransient, s)
| sp_err room p s s1 e : (13 <= length p)%nat -> (rec_end12 p <= length p)%nat ->
    rec_parse E (firstn (rec_end12 p) p) s = (Err e, s1) -> splits12 E room p s (Err e, s1)
| sp_panic room p s s1 n : (13 <= length p)%nat -> (rec_end12 p <= length p)%nat ->
    rec_parse E (firstn (rec_end12 p) p) s = (Panic n, s1) -> splits12 E room p s (Panic n, s1)
| sp_drop room p s s1 x : (13 <= length p)%nat -> (rec_end12 p <= length p)%nat ->
    rec_parse E (firstn (rec_end12 p) p) s = (Ok None, s1) -> splits12 E room (skipn (rec_end12 p) p) s1 x -> splits12 E room p s x
| sp_full p s s1 r : (13 <= length p)%nat -> (rec_end12 p <= length p)%nat ->
    rec_parse E (firstn (rec_end12 p) p) s = (Ok (Some r), s1) -> splits12 E 0 p s (Err ETransient, s1)
| sp_keep room p s s1 r x s2 : (13 <= length p)%nat -> (rec_end12 p <= length p)%nat ->
    rec_parse E (firstn (rec_end12 p) p) s = (Ok (Some r), s1) -> splits12 E room (skipn (rec_end12 p) p) s1 (x, s2) ->
    splits12 E (S room) p s (match x with Ok rs => Ok (r :: rs) | Err e => Err e | Panic n => Panic n end, s2).
Lemma ends_split12 E : forall fuel room p s, (length p <= fuel)%nat -> splits12 E room p s (parse_loop E fuel room p s).
Proof.
  induction fuel as [|fuel IH]; intros room p s Hf; (destruct p as [|b q]; [apply sp_end|]); [cbn in Hf; lia|]. set (p := b :: q) in *.
  assert (Hu : parse_loop E (S fuel) room p s = (
      if Nat.ltb (length p) HEADER_LEN then fail ETransient
      else if Nat.ltb (length p) (rec_end12 p) then fail ETransient
      else let! o := rec_parse E (firstn (rec_end12 p) p) in
          match o with
          | None => parse_loop E fuel room (skipn (rec_end12 p) p)
          | Some r =>
            match room with
            | O => fail ETransient
            | S room' => let! rs := parse_loop E fuel room' (skipn (rec_end12 p) p) in ret (r :: rs)
            end
          end) s) by reflexivity.
  rewrite Hu. clear Hu. assert (Hp : p <> []) by discriminate. clearbody p. change HEADER_LEN with 13%nat.
  destruct (Nat.ltb (length p) 13) eqn:H1; [apply sp_short; [exact Hp|left; apply Nat.ltb_lt, H1]|]. apply Nat.ltb_ge in H1.
  destruct (Nat.ltb (length p) (rec_end12 p)) eqn:H2; [apply sp_short; [exact Hp|right; apply Nat.ltb_lt, H2]|]. apply Nat.ltb_ge in H2.
  assert (Hl : (length (skipn (rec_end12 p) p) <= fuel)%nat) by (rewrite skipn_length; unfold rec_end12; lia).
  unfold bind at 1. destruct (rec_parse E (firstn (rec_end12 p) p) s) as [[[r|]|e|n] s1] eqn:Hr.
  - destruct room as [|room]; [eapply sp_full; eassumption|]. unfold bind. specialize (IH room _ s1 Hl).
    destruct (parse_loop E fuel room (skipn (rec_end12 p) p) s1) as [x s2].
    replace (match x with Ok a => ret (r :: a) s2 | Err e => (Err e, s2) | Panic n => (Panic n, s2) end)
      with (match x with Ok rs => Ok (r :: rs) | Err e => Err e | Panic n => Panic n end, s2) by (destruct x; reflexivity).
    eapply sp_keep; eassumption.
  - eapply sp_drop; try eassumption. apply IH, Hl.
  - eapply sp_err; eassumption.
  - eapply sp_panic; eassumption.
Qed.

(** DTLS 1.3: [rec_bound13] finds the end of the first record. *)
Inductive splits13 (E : Env) : nat -> bytes -> Eng13 -> res (list Rec12) * Eng13 -> Prop :=
| sq_end room s : splits13 E room [] s (Ok [], s)
| sq_stop room p s : p <> [] -> rec_bound13 p = BStop -> splits13 E room p s (Ok [], s)
| sq_bad room p s : p <> [] -> rec_bound13 p = BBad -> splits13 E room p s (Err ETransient, s)
| sq_err room p s s1 e k : p <> [] -> rec_bound13 p = BRec k ->
    rec_parse13 E (firstn k p) s = (Err e, s1) -> splits13 E room p s (Err e, s1)
| sq_panic room p s s1 n k : p <> [] -> rec_bound13 p = BRec k ->
    rec_parse13 E (firstn k p) s = (Panic n, s1) -> splits13 E room p s (Panic n, s1)
| sq_drop room p s s1 x k : p <> [] -> rec_bound13 p = BRec k ->
    rec_parse13 E (firstn k p) s = (Ok None, s1) -> splits13 E room (skipn k p) s1 x -> splits13 E room p s x
| sq_full p s s1 r k : p <> [] -> rec_bound13 p = BRec k ->
    rec_parse13 E (firstn k p) s = (Ok (Some r), s1) -> splits13 E 0 p s (Err ETransient, s1)
| sq_keep room p s s1 r x s2 k : p <> [] -> rec_bound13 p = BRec k ->
    rec_parse13 E (firstn k p) s = (Ok (Some r), s1) -> splits13 E room (skipn k p) s1 (x, s2) ->
    splits13 E (S room) p s (match x with Ok rs => Ok (r :: rs) | Err e => Err e | Panic n => Panic n end, s2).
Lemma rec_bound13_pos p k : rec_bound13 p = BRec k -> p <> [] -> (1 <= k)%nat.
Proof.
  unfold rec_bound13. intros H Hp. assert (Hl : (1 <= length p)%nat) by (destruct p; [congruence|cbn; lia]). revert H.
  assert (Hu : forall b, (1 <= uhdr_len b)%nat) by (intro b; unfold uhdr_len; lia).
  repeat match goal with |- context [if ?b then _ else _] => destruct b end; intros H; inversion H; subst; try lia; specialize (Hu (hd 0 p)); lia.
Qed.
Lemma ends_split13 E : forall fuel room p s, (length p <= fuel)%nat -> splits13 E room p s (parse_loop13 E fuel room p s).
Proof.
  induction fuel as [|fuel IH]; intros room p s Hf; (destruct p as [|b q]; [apply sq_end|]); [cbn in Hf; lia|]. set (p := b :: q) in *.
  assert (Hu : parse_loop13 E (S fuel) room p s = (
      match rec_bound13 p with
      | BStop => ret []
      | BBad => fail ETransient
      | BRec e =>
        let! o := rec_parse13 E (firstn e p) in
          match o with
          | None => parse_loop13 E fuel room (skipn e p)
          | Some r =>
            match room with
            | O => fail ETransient
            | S room' => let! rs := parse_loop13 E fuel room' (skipn e p) in ret (r :: rs)
            end
          end end) s) by reflexivity.
  rewrite Hu. clear Hu. assert (Hp : p <> []) by discriminate. clearbody p.
  destruct (rec_bound13 p) as [| |k] eqn:Hb; [apply sq_stop; assumption|apply sq_bad; assumption|].
  assert (Hl : (length (skipn k p) <= fuel)%nat) by (rewrite skipn_length; pose proof (rec_bound13_pos _ _ Hb Hp); lia).
  unfold bind at 1. destruct (rec_parse13 E (firstn k p) s) as [[[r|]|e|n] s1] eqn:Hr.
  - destruct room as [|room]; [eapply sq_full; eassumption|]. unfold bind. specialize (IH room _ s1 Hl).
    destruct (parse_loop13 E fuel room (skipn k p) s1) as [x s2].
    replace (match x with Ok a => ret (r :: a) s2 | Err e => (Err e, s2) | Panic n => (Panic n, s2) end)
      with (match x with Ok rs => Ok (r :: rs) | Err e => Err e | Panic n => Panic n end, s2) by (destruct x; reflexivity).
    eapply sq_keep; eassumption.
  - eapply sq_drop; try eassumption. apply IH, Hl.
  - eapply sq_err; eassumption.
  - eapply sq_panic; eassumption.
Qed.

(** ** Cutting a handshake message into fragments *)
Inductive cuts {S} (step : N -> bytes -> S -> res unit * nat * S) : N -> bytes -> S -> res unit * S -> Prop :=
| ct_done off s : cuts step off [] s (Ok tt, s)
| ct_again off rest s n s1 x : rest <> [] -> step off rest s = (Ok tt, n, s1) ->
    cuts step (off + N.of_nat n) (skipn n rest) s1 x -> cuts step off rest s x
| ct_err off rest s n s1 e : rest <> [] -> step off rest s = (Err e, n, s1) -> cuts step off rest s (Err e, s1)
| ct_panic off rest s n s1 k : rest <> [] -> step off rest s = (Panic k, n, s1) -> cuts step off rest s (Panic k, s1).

(** The space left for the body of the next fragment: what remains of the last datagram
    of the queue, or of a new one. *)
Definition chunk_room (mtu used fixed : N) : N := if fixed <? mtu - used then mtu - used - fixed else mtu - fixed.
Definition last_len (q : list bytes) : N := match rev q with [] => 0 | b :: _ => len b end.
Definition cut12 E (mt total seq epoch prot : N) (off : N) (rest : bytes) (s : Eng12) : res unit * nat * Eng12 :=
  let chunk := N.min (len rest) (chunk_room (c_mtu (en_cfg s)) (last_len (en_tx s)) (13 + 12 + prot)) in
  let x := create_record E CT_HS epoch true (s_hs_header mt total seq off chunk ++ firstn (N.to_nat chunk) rest) s in
  (fst x, N.to_nat chunk, snd x).
Definition cut13 E (mt total seq ep prot : N) (off : N) (rest : bytes) (s : Eng13) : res unit * nat * Eng13 :=
  let chunk := N.min (len rest) (chunk_room (c_mtu (g_cfg s)) (last_len (g_tx s)) ((if ep =? 0 then 13 else 5) + 12 + prot)) in
  let frag := s_hs_header mt total seq off chunk ++ firstn (N.to_nat chunk) rest in
  let x := (if ep =? 0 then create_plain13 CT_HS true frag else create_cipher13 E CT_HS ep true frag) s in
  (fst x, N.to_nat chunk, snd x).

Lemma ends_cut13 E mt total seq ep prot : forall fuel off rest s,
  (1 <= fuel)%nat -> (12 < fuel + length (g_saved s))%nat -> cuts (cut13 E mt total seq ep prot) off rest s (frag_loop13 E fuel mt total seq ep prot off rest s).
Proof.
  assert (Step : forall f s s1, (if ep =? 0 then create_plain13 CT_HS true f else create_cipher13 E CT_HS ep true f) s = (Ok tt, s1) ->
    (length (g_saved s) < 12)%nat /\ length (g_saved s1) = S (length (g_saved s))).
  { intros f s s1 H. destruct (ep =? 0).
    - pose proof (create_plain_spec CT_HS true f s) as C. unfold wp in C. rewrite H in C. cbv zeta in C. cbn [fst snd] in C.
      destruct C as (_ & _ & L & ->). split; [auto|]. unfold emit13, keep13. destruct (can_append13 _ _); cbn; rewrite app_length; cbn; lia.
    - pose proof (create_cipher_spec E CT_HS ep true f s) as C. unfold wp in C. rewrite H in C. cbv zeta in C. cbn [fst snd] in C.
      destruct C as (cs & i & k & body & rec & _ & _ & _ & _ & _ & _ & L & ->). split; [auto|].
      assert (K : forall b r c t, g_saved (emit13 b r (bump_seq c ep t)) = g_saved t).
      { intros b r c t. unfold emit13, bump_seq. destruct b, c; cbn; repeat match goal with |- context [if ?b then _ else _] => destruct b end; reflexivity. }
      rewrite K. unfold keep13. cbn. rewrite app_length; cbn; lia. }
  induction fuel as [|fuel IH]; intros off rest s H1 Hf; [lia|]. destruct rest as [|b q]; [apply ct_done|]. set (rest := b :: q) in *.
  set (chunk := N.min (len rest) (chunk_room (c_mtu (g_cfg s)) (last_len (g_tx s)) ((if ep =? 0 then 13 else 5) + 12 + prot))).
  set (frag := s_hs_header mt total seq off chunk ++ firstn (N.to_nat chunk) rest).
  assert (Hu : frag_loop13 E (S fuel) mt total seq ep prot off rest s =
    ((if ep =? 0 then create_plain13 CT_HS true frag else create_cipher13 E CT_HS ep true frag) ;;;
     frag_loop13 E fuel mt total seq ep prot (off + chunk) (skipn (N.to_nat chunk) rest)) s) by reflexivity.
  rewrite Hu. clear Hu. assert (Hp : rest <> []) by discriminate.
  destruct ((if ep =? 0 then create_plain13 CT_HS true frag else create_cipher13 E CT_HS ep true frag) s) as [r s1] eqn:Hr.
  assert (Hc : cut13 E mt total seq ep prot off rest s = (r, N.to_nat chunk, s1)).
  { unfold cut13. fold chunk. fold frag. rewrite Hr. reflexivity. }
  unfold bind. rewrite Hr. destruct r as [[]|e|n].
  - destruct (Step _ _ _ Hr) as [L1 L2]. eapply ct_again; [exact Hp|exact Hc|]. rewrite N2Nat.id. apply IH; lia.
  - eapply ct_err; eassumption.
  - eapply ct_panic; eassumption.
Qed.

(** DTLS 1.2: what is left to send, the datagrams that still fit the queue, and whether
    the last one is empty. *)
Definition left12 (rest : bytes) (s : Eng12) : nat :=
  (length rest + (N.to_nat (c_max_tx (en_cfg s)) - length (en_tx s)) +
   match rev (en_tx s) with [] :: _ => 1 | _ => 0 end)%nat.
Lemma ends_cut12 E mt total seq epoch : forall fuel off rest s,
  (left12 rest s < fuel)%nat ->
  cuts (cut12 E mt total seq epoch (overhead s epoch)) off rest s (frag_loop E fuel mt total seq epoch (overhead s epoch) off rest s).
Proof.
  induction fuel as [|fuel IH]; intros off rest s Hf; [lia|]. destruct rest as [|b q]; [apply ct_done|]. set (rest := b :: q) in *.
  set (prot := overhead s epoch) in *.
  set (chunk := N.min (len rest) (chunk_room (c_mtu (en_cfg s)) (last_len (en_tx s)) (13 + 12 + prot))).
  set (frag := s_hs_header mt total seq off chunk ++ firstn (N.to_nat chunk) rest).
  assert (Hu : frag_loop E (S fuel) mt total seq epoch prot off rest s =
    (create_record E CT_HS epoch true frag ;;;
     frag_loop E fuel mt total seq epoch prot (off + chunk) (skipn (N.to_nat chunk) rest)) s) by reflexivity.
  rewrite Hu. clear Hu. assert (Hp : rest <> []) by discriminate.
  destruct (create_record E CT_HS epoch true frag s) as [r s1] eqn:Hr.
  assert (Hc : cut12 E mt total seq epoch prot off rest s = (r, N.to_nat chunk, s1)).
  { unfold cut12. fold chunk. fold frag. rewrite Hr. reflexivity. }
  unfold bind. rewrite Hr. destruct r as [[]|e|n].
  - eapply ct_again; [exact Hp|exact Hc|]. rewrite N2Nat.id.
    pose proof (create_record_spec E CT_HS epoch true false frag s) as C. unfold wp in C. unfold create_record in Hr. rewrite Hr in C. cbv zeta in C. cbn [fst snd] in C.
    destruct C as (o & sv & _ & _ & fr & _ & Ha & E1).
    set (rec := s_rec12 _ _ _ _ _) in *. set (app := can_append _ _ _) in *.
    assert (Ec : en_cfg s1 = en_cfg s /\ overhead s1 epoch = prot /\ en_tx s1 = if app then append_last rec (en_tx s) else en_tx s ++ [rec]).
    { subst s1 prot. unfold overhead, bump. destruct app, (epoch =? 0), (1 <=? epoch); auto. }
    destruct Ec as (Ec & Eo & Et). rewrite <- Eo. apply IH.
    assert (Lf : len frag = 12 + chunk).
    { unfold frag. rewrite len_app, len_hs_header. unfold len at 1. rewrite firstn_length. unfold chunk, len. lia. }
    assert (Lr : exists y ys, rec = y :: ys).
    { assert (L : len rec = 13 + len fr) by (unfold rec; apply len_s_rec12). destruct rec as [|y ys]; [unfold len in L; cbn in L; lia|eauto]. }
    destruct Lr as (y & ys & Lr).
    assert (Fl : match rev (en_tx s1) with [] :: _ => 1%nat | _ => 0%nat end = 0%nat).
    { rewrite Et. destruct app.
      - unfold append_last. destruct (rev (en_tx s)) as [|bb r] eqn:R; [reflexivity|]. rewrite rev_app_distr. cbn [rev app]. rewrite Lr. destruct bb; reflexivity.
      - rewrite rev_app_distr. cbn [rev app]. rewrite Lr. reflexivity. }
    unfold left12 in Hf |- *. rewrite Fl, Ec.
    assert (Lt : (length (en_tx s1) = length (en_tx s) \/ length (en_tx s1) = S (length (en_tx s)))%nat).
    { rewrite Et. destruct app; [left|right; rewrite app_length; cbn; lia]. unfold append_last.
      rewrite <- (rev_length (en_tx s)) . destruct (rev (en_tx s)) as [|bb r] eqn:R; [|rewrite app_length, rev_length; cbn; lia].
      reflexivity. }
    rewrite skipn_length.
    assert (Lrest : (1 <= length rest)%nat) by (unfold rest; cbn; lia).
    destruct (N.eq_dec chunk 0) as [Z|NZ].
    + (* nothing fits: the record opens a datagram, or fills an empty one *)
      assert (Zm : c_mtu (en_cfg s) <= 25 + prot).
      { revert Z. unfold chunk, chunk_room. destruct (_ <? _) eqn:Hlt; unfold len; lia. }
      destruct app eqn:Happ.
      * assert (R : exists t, rev (en_tx s) = [] :: t).
        { revert Happ. unfold app, can_append. destruct (rev (en_tx s)) as [|bb t]; [discriminate|]. cbn [negb andb]. rewrite Lf, Z. fold prot.
          intros Q. apply N.leb_le in Q. destruct bb as [|z zs]; [eauto|]. exfalso. unfold len in Q; cbn [length] in Q. lia. }
        destruct R as (t & R). rewrite R in Hf. lia.
      * specialize (Ha eq_refl). assert (Lt' : length (en_tx s1) = S (length (en_tx s))) by (rewrite Et, app_length; cbn; lia).
        unfold len in Ha. destruct (rev (en_tx s)) as [|[|] ?]; lia.
    + assert (1 <= N.to_nat chunk)%nat by lia. destruct (rev (en_tx s)) as [|[|] ?]; lia.
  - eapply ct_err; eassumption.
  - eapply ct_panic; eassumption.
Qed.
