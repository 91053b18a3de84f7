(** A DTLS 1.3 endpoint with an established connection does not panic on a datagram. *)
From Coq Require Import String.
Close Scope string_scope.
From Verif Require Import Prelude PreludeFacts Types Codec Codec12 Codec13 Record12 Record13 Monad MonadFacts Timer Env Config Aead Prf AuxProofs Engine12 Client12
  Engine13 Client13 Server13 Context12 History12 History12Facts History13 Frame13 Lift13 Send13Proofs Rx13Proofs Fin13 Est13 Loops Garbage13.

(** The keys of every suite fit into the 32 bytes kept for the record number key. *)
Definition keys13_fit (E : Env) : Prop := forall cs i, find13 E cs = Some i -> (s13_key i <= 32)%nat.

(** ** Lengths of derived keys *)
Lemma hkdf_loop_le E h prk info : forall n i t L out, hkdf_loop E h prk info n i t L = Some out -> (length out <= L)%nat.
Proof.
  induction n as [|n IH]; intros i t L out; cbn [hkdf_loop]; [intro H; injection H as <-; cbn; lia|].
  destruct (e_hmac E h prk _) as [t'|]; [|discriminate]. destruct (hkdf_loop E h prk info n (i + 1) t' _) as [r|] eqn:Hr; [|discriminate].
  intro H; injection H as <-. apply IH in Hr. rewrite app_length, firstn_length. lia.
Qed.
Lemma label13_le E h s l c n out : hkdf_expand_label13 E h s l c n = Some out -> (length out <= n)%nat.
Proof.
  unfold hkdf_expand_label13, hkdf_expand. destruct (hkdf_label _ _ _ _) as [info|]; [|discriminate].
  destruct (Nat.ltb _ _); [discriminate|]. apply hkdf_loop_le.
Qed.
Lemma hkdf_loop_eq E h prk info : hmac_ok E -> forall n i t L out, (L <= n * hash_len h)%nat ->
  hkdf_loop E h prk info n i t L = Some out -> length out = L.
Proof.
  intros HM. induction n as [|n IH]; intros i t L out HL; cbn [hkdf_loop]; [intro H; injection H as <-; cbn in *; lia|].
  pose proof (HM h prk (t ++ info ++ [u8 i])) as K. destruct (e_hmac E h prk _) as [t'|]; [|discriminate]. destruct K as [K _].
  destruct (hkdf_loop E h prk info n (i + 1) t' _) as [r|] eqn:Hr; [|discriminate].
  intro H; injection H as <-. cbn [Nat.mul] in HL. apply IH in Hr; [|lia]. rewrite app_length, firstn_length. lia.
Qed.
Lemma label13_eq E h s l c n out : hmac_ok E -> (0 < hash_len h)%nat -> hkdf_expand_label13 E h s l c n = Some out -> length out = n.
Proof.
  intros HM Hh. unfold hkdf_expand_label13, hkdf_expand. destruct (hkdf_label _ _ _ _) as [info|]; [|discriminate].
  destruct (Nat.ltb _ _); [discriminate|]. apply hkdf_loop_eq; [exact HM|]. unfold div_ceil.
  pose proof (Nat.div_mod (n + hash_len h - 1) (hash_len h)). pose proof (Nat.mod_upper_bound (n + hash_len h - 1) (hash_len h)). nia.
Qed.

(** ** What every reachable engine keeps *)
Definition fit (o : option Keys13) : Prop := match o with Some k => (length (ek_sn k) <= 32)%nat | None => True end.
Definition roomy (e : Eng13) : Prop :=
  fit (g_hs_send e) /\ fit (g_prev e) /\ fit (g_app_send e) /\ (length (g_recv e) <= 4)%nat.

Lemma derive_fit E sec e : keys13_fit E -> wp (derive_epoch_keys E sec) (fun r e' => e' = e /\ match r with Ok k => (length (ek_sn k) <= 32)%nat | _ => True end) e.
Proof.
  intros KF. unfold derive_epoch_keys, hash_alg13, suite_provider13, label13.
  apply wp_bind, wp_bind, wp_get. destruct (g_suite e) as [cs|] eqn:Hcs; [|apply wp_panic; auto]. apply wp_ret.
  apply wp_bind, wp_bind, wp_get. rewrite Hcs. destruct (find13 E cs) as [i|] eqn:Hi; [|apply wp_panic; auto]. apply wp_ret.
  apply wp_bind, wp_of_opt. destruct (hkdf_expand_label13 _ _ _ _ _ _) as [k|]; [|auto].
  apply wp_bind, wp_of_opt. destruct (hkdf_expand_label13 _ _ _ _ _ _) as [iv|]; [|auto].
  apply wp_bind, wp_of_opt. destruct (hkdf_expand_label13 _ _ _ (str "sn"%string) _ _) as [sn|] eqn:Hs; [|auto].
  destruct (negb _); [apply wp_fail; auto|]. destruct (negb _); [apply wp_panic; auto|]. apply wp_ret. split; [reflexivity|].
  cbn [ek_sn]. pose proof (label13_le _ _ _ _ _ _ _ Hs). pose proof (KF _ _ Hi). lia.
Qed.

Lemma upd_recv_length ep f l : length (upd_recv ep f l) = length l.
Proof. induction l as [|a l IH]; cbn; [reflexivity|]. destruct (_ =? _); cbn; auto. Qed.

Ltac split_roomy H := let A := fresh "A" in let B := fresh "B" in let C := fresh "C" in let D := fresh "D" in destruct H as (A & B & C & D).

Lemma push_roomy x : pres (fun a b => roomy a -> roomy b) (push_recv x).
Proof.
  intros e H. change (wp (push_recv x) (fun _ e' => roomy e') e). unfold push_recv. apply wp_bind, wp_get.
  destruct (Nat.leb_spec 4 (length (g_recv e))); [exact H|]. apply wp_modify. split_roomy H.
  unfold roomy. cbn [g_hs_send g_prev g_app_send g_recv set_g_recv]. repeat split; auto. rewrite app_length. cbn. lia.
Qed.

Section Fit.
Variable E : Env.
Hypothesis KF : keys13_fit E.
Let R := fun a b : Eng13 => roomy a -> roomy b.
Let PO : preorder R := preorder_inv roomy.

Lemma next_secret_same s e : wp (derive_next_secret E s) (fun r e' => e' = e) e.
Proof. apply (wp_pres (fun a b => b = a)). apply op_next_secret. split; congruence. Qed.

Lemma install_hs_roomy a b : pres R (install_handshake_keys E a b).
Proof.
  intros e H. change (wp (install_handshake_keys E a b) (fun _ e' => roomy e') e). unfold install_handshake_keys.
  apply wp_bind, wp_get. destruct (if g_client e then (a, b) else (b, a)) as [x y].
  apply wp_bind. wpuse derive_fit; [exact KF|]. intros [k1|?|?] e1 [-> K1]; [|exact H..].
  split_roomy H.
  repeat match goal with
  | |- wp (bind (derive_epoch_keys _ _) _) _ _ => apply wp_bind; wpuse derive_fit; [exact KF|]; let K := fresh in intros [?k|?|?] ?e [-> K]
  | |- wp (bind _ _) _ _ => apply wp_bind
  | |- wp (modify _) _ _ => apply wp_modify
  | |- wp (ret _) _ _ => apply wp_ret
  end; unfold roomy; cbn; auto.
Qed.
Lemma install_app_roomy a b : pres R (install_application_keys E a b).
Proof.
  intros e H. change (wp (install_application_keys E a b) (fun _ e' => roomy e') e). unfold install_application_keys.
  apply wp_bind, wp_get. destruct (if g_client e then (a, b) else (b, a)) as [x y].
  apply wp_bind. wpuse derive_fit; [exact KF|]. intros [k1|?|?] e1 [-> K1]; [|exact H..].
  apply wp_bind, wp_modify. assert (H1 : roomy (set_g_app_send (Some k1) e)) by (split_roomy H; unfold roomy; cbn; auto).
  apply wp_bind. wpuse derive_fit; [exact KF|]. intros [k2|?|?] e1 [-> K2]; [|exact H1..].
  apply wp_bind. eapply wp_mono; [apply (wp_pres R), push_roomy|]. intros [u|?|?] e2 H2; specialize (H2 H1); [|exact H2..].
  apply wp_modify. exact H2.
Qed.
Lemma update_recv_roomy : pres R (update_recv_keys E).
Proof.
  unfold update_recv_keys. presauto PO ltac:(first [apply op_derive_epoch_keys; exact PO | apply op_next_secret; exact PO | apply push_roomy
    | apply pres_modify; intros s H; split_roomy H; unfold roomy; cbn [g_hs_send g_prev g_app_send g_recv set_g_recv]; repeat split; auto; destruct (g_recv s); cbn in *; lia]).
Qed.
Lemma update_send_roomy : pres R (update_send_keys E).
Proof.
  intros e H. change (wp (update_send_keys E) (fun _ e' => roomy e') e). unfold update_send_keys.
  apply wp_bind, wp_get. destruct (g_app_send e) as [cur|] eqn:Hc; [|exact H].
  apply wp_bind, wp_modify. assert (H1 : roomy (set_g_app_send None e)) by (split_roomy H; unfold roomy; cbn; auto).
  assert (HF : (length (ek_sn cur) <= 32)%nat) by (split_roomy H; rewrite Hc in *; assumption).
  apply wp_bind. wpuse next_secret_same. intros [nx|?|?] e1 ->; [|exact H1..].
  apply wp_bind. wpuse derive_fit; [exact KF|]. intros [ks|?|?] e1 [-> K2]; [|exact H1..].
  apply wp_bind, wp_modify, wp_bind, wp_modify, wp_bind. unfold wp at 1, draw13. cbn [fst snd]. apply wp_modify. destruct H as (X1 & X2 & X3 & X4). unfold roomy. cbn. auto.
Qed.
Lemma roomy_frame : eng_frame13 E R.
Proof.
  frame13_over ltac:(idtac; lazymatch goal with
    | |- pres _ (rec_parse13 _ _) => unfold rec_parse13;
        presauto PO ltac:(first [apply op_unmask; exact PO | apply op_suite_provider; exact PO
          | apply pres_modify; intros s H; unfold replay_update13; destruct (_ =? 2); [exact H|];
            unfold roomy in *; cbn [g_hs_send g_prev g_app_send g_recv set_g_recv]; rewrite upd_recv_length; exact H])
    | |- pres _ (install_application_keys _ _ _) => apply install_app_roomy
    | |- pres _ (install_handshake_keys _ _ _) => apply install_hs_roomy
    | |- pres _ (update_recv_keys _) => apply update_recv_roomy
    | |- pres _ (update_send_keys _) => apply update_send_roomy
    end) ltac:(first [exact PO | intros v s H; exact H | intros s H; exact H | intros; assumption
      | intros s (H1 & H2 & H3 & H4); unfold roomy; cbn; auto | intros v s H0 H; exact H | idtac]).
  all: intro; assumption.
Qed.
End Fit.
Lemma reach_roomy E cfg cert key h s : keys13_fit E -> reach13 E cfg cert key h s -> roomy (end13_eng s).
Proof.
  intro KF. apply eng13_inv; [apply roomy_frame, KF| |].
  - intros e (b & n & ->). unfold roomy; cbn; lia.
  - intro f. unfold roomy; cbn; lia.
Qed.

(** ** No datagram in the receive queue is empty *)
Definition filled (e : Eng13) : Prop := Forall (fun x => x <> []) (g_rx e).
Definition RF (a b : Eng13) : Prop := filled a -> filled b.
Lemma RF_po : preorder RF.
Proof. apply preorder_inv. Qed.
Lemma map_acc_len {S A} (f : S -> A -> A * S) l : forall st, length (fst (map_acc f st l)) = length l.
Proof. induction l as [|a l IH]; intro st; cbn [map_acc]; [reflexivity|]. destruct (f st a) as [b st']. specialize (IH st'). destruct (map_acc f st' l). cbn in *. auto. Qed.
Lemma map_acc_filled {S A} (f : S -> A -> A * S) q : forall st, Forall (fun x => x <> []) q -> Forall (fun x => x <> []) (fst (map_acc (map_acc f) st q)).
Proof.
  induction q as [|x q IH]; intros st H; cbn [map_acc]; [constructor|]. inversion H; subst.
  pose proof (map_acc_len f x st) as L. destruct (map_acc f st x) as [y st']. specialize (IH st' ltac:(assumption)). destruct (map_acc (map_acc f) st' q) as [z st2].
  cbn in *. constructor; [|assumption]. intros ->. destruct x; [congruence|discriminate].
Qed.
Lemma Forall_skip {A} (Q : A -> Prop) f l : Forall Q l -> Forall Q (skip_while f l).
Proof. induction 1 as [|x l Hx Hl IH]; cbn; [constructor|]. destruct (f x); auto. Qed.
Lemma Forall_at {A} (Q : A -> Prop) i x l : Q x -> Forall Q l -> Forall Q (insert_at i x l).
Proof.
  intros Hx Hl. unfold insert_at. rewrite <- (firstn_skipn i l) in Hl. apply Forall_app in Hl. apply Forall_app. split; [apply Hl|constructor; [exact Hx|apply Hl]].
Qed.
Lemma filled_insert E inc : inc <> [] -> pres RF (insert_incoming13 E inc).
Proof.
  intros Hi.
  assert (HF : pres RF (flight_resend13 E)).
  { eapply pres_mono; [|apply rx_flight_resend13]. intros a b H. unfold RF, filled. rewrite H. auto. }
  unfold insert_incoming13, insert_handshake13, insert_non_handshake13, bsearch13, draw13.
  presauto RF_po ltac:(first
    [ exact HF | apply pres_modify; intros s Hs; apply Forall_at; [|exact Hs]
    | apply pres_modify; intros s Hs; apply Forall_set_nth; [|exact Hs]
    | apply pres_modify; intros s Hs; exact Hs ]); exact Hi.
Qed.
Lemma filled_pp E p : pres RF (eng13_parse_packet E p).
Proof.
  unfold eng13_parse_packet. apply (pres_bind _ RF_po).
  - fr13 ltac:(first [exact RF_po|intros; exact (fun H => H)]).
  - intros [|r rs]; [apply (pres_ret _ RF_po)|apply filled_insert; discriminate].
Qed.
Ltac filledm := apply pres_modify; intros s0 H0; unfold filled in *; cbn [g_rx set_g_rx set_g_transcript set_g_ackdl
   set_g_hs_seq set_g_tx set_g_cn_rep];
  first [exact H0 | apply map_acc_filled, H0 | apply Forall_skip, H0 | apply Forall_filter, H0 ].
Lemma filled_frame E : eng_frame13 E RF.
Proof.
  assert (P1 : forall a b w, pres RF (next_handshake13_gen a b w))
    by (intros; unfold next_handshake13_gen; presauto RF_po filledm).
  assert (P2 : forall cap, pres RF (poll_app_data13 cap))
    by (intros; unfold poll_app_data13; presauto RF_po filledm).
  assert (P4 : pres RF reset_for_hello_retry) by filledm.
  assert (P6 : pres RF (enable_peer_encryption13 E)).
  { intro s. unfold enable_peer_encryption13. apply (wp_bind (modify _) _ (fun _ s' => RF s s')), wp_modify, wp_bind, wp_get.
    pose proof (split_epoch2_app (g_rx (set_g_penc true s))) as K. destruct (split_epoch2 _) as [a b]. cbn [fst snd] in K.
    apply wp_bind, wp_modify. eapply wp_mono; [apply (wp_pres RF), (pres_iterM _ RF_po); intro; apply filled_pp|].
    intros r0 s' H. eapply (po_trans _ RF_po); [|exact H]. intros H1. unfold filled in *.
    cbn in *. rewrite <- K in H1. apply Forall_app in H1. apply H1. }
  frame13_over
    ltac:(first [apply filled_pp | apply P1 | apply P2 | apply P4 | apply P6])
    ltac:(first [exact RF_po|intros; exact (fun H => H)|idtac]).
  intro H. apply Forall_skip, H.
Qed.
Lemma reach_filled E cfg cert key h s : reach13 E cfg cert key h s -> filled (end13_eng s).
Proof.
  apply eng13_inv; [apply filled_frame| |].
  - intros e (b & n & ->). constructor.
  - intro f. constructor.
Qed.

(** ** Programs that do not panic *)
Definition is_panic {A} (r : res A) : Prop := match r with Panic _ => True | _ => False end.
(** What the suites of a provider must offer for the key schedule not to panic. *)
Definition provider13_ok (E : Env) : Prop := forall cs i, find13 E cs = Some i ->
  s13_iv i = 12%nat /\ (s13_key i <= 32)%nat /\ (0 < hash_len (suite13_hash cs))%nat.

Section NoPanic.
Variable E : Env.
Hypothesis PV : provider13_ok E.
Hypothesis HM : hmac_ok E.
Hypothesis BS : bsearch_ok E.

Lemma KF : keys13_fit E.
Proof. intros cs i H. apply (PV _ _ H). Qed.

Definition calm (e : Eng13) : Prop := suite_known E e /\ roomy e /\ filled e.
Definition np {A} (m : M Eng13 A) : Prop := forall e, calm e -> wp m (fun r e' => calm e' /\ ~ is_panic r) e.

Lemma np_ret {A} (a : A) : np (ret a).
Proof. intros e H. split; [exact H|intros []]. Qed.
Lemma np_fail {A} x : np (@fail Eng13 A x).
Proof. intros e H. split; [exact H|intros []]. Qed.
Lemma np_modify f : (forall e, calm e -> calm (f e)) -> np (modify f).
Proof. intros K e H. split; [apply K, H|intros []]. Qed.
Lemma np_bind {A B} (m : M Eng13 A) (k : A -> M Eng13 B) : np m -> (forall a, np (k a)) -> np (bind m k).
Proof. intros H K e C. apply wp_bind. wpuse (H e C). intros [a|x|n] e' [C' N]; [apply K, C'|split; [exact C'|intros []]|destruct N; exact I]. Qed.
Lemma np_get {B} (k : Eng13 -> M Eng13 B) : (forall s, calm s -> np (k s)) -> np (bind get k).
Proof. intros K e C. apply wp_bind, wp_get. apply K; exact C. Qed.
Lemma np_when b m : np m -> np (when b m).
Proof. intros H. destruct b; [exact H|apply np_ret]. Qed.
Lemma np_of_opt {A} x (o : option A) : np (of_opt x o).
Proof. destruct o; [apply np_ret|apply np_fail]. Qed.
Lemma np_iter {A} (f : A -> M Eng13 unit) l : (forall a, np (f a)) -> np (iterM f l).
Proof. intros H. induction l as [|a l IH]; [apply np_ret|]. apply np_bind; [apply H|intro; exact IH]. Qed.
Lemma np_draw : np draw13.
Proof. intros e C. split; [exact C|intros []]. Qed.

Ltac npauto leaf :=
  repeat first [ solve [leaf] | lazymatch goal with
  | |- np (bind get _) => apply np_get; intros ? ?
  | |- np (bind _ _) => apply np_bind; [|intro]
  | |- np (ret _) => apply np_ret
  | |- np (fail _) => apply np_fail
  | |- np (when false _) => apply np_ret
  | |- np (when _ _) => apply np_when
  | |- np (of_opt _ _) => apply np_of_opt
  | |- np draw13 => apply np_draw
  | |- np (modify _) => apply np_modify; let H := fresh in intros ? H; exact H
  | |- np (match ?x with _ => _ end) => destruct x eqn:?
  | |- np (let '(_, _) := ?x in _) => destruct x eqn:?
  end ].

Lemma np_provider : np (suite_provider13 E).
Proof. intros e C. destruct C as ((cs & i & C1 & C2) & C3). unfold suite_provider13. apply wp_bind, wp_get. rewrite C1, C2. split; [split; [exists cs, i; auto|exact C3]|intros []]. Qed.
Lemma np_unmask raw : np (unmask13 E raw).
Proof. unfold unmask13. npauto ltac:(apply np_provider). Qed.
Lemma np_rec_parse raw : np (rec_parse13 E raw).
Proof.
  unfold rec_parse13. npauto ltac:(first [apply np_provider | apply np_unmask
    | apply np_modify; intros zz ZH; unfold replay_update13; destruct (_ =? 2); [exact ZH|];
      destruct ZH as (Z1 & (Z2 & Z3 & Z4 & Z5) & Z6); split; [exact Z1|]; split; [|exact Z6]; unfold roomy; cbn [g_hs_send g_prev g_app_send g_recv set_g_recv]; rewrite upd_recv_length; auto]).
Qed.
Lemma np_parse_loop : forall fuel room p, (length p <= fuel)%nat -> np (parse_loop13 E fuel room p).
Proof.
  induction fuel as [|fuel IH]; intros room p L; (destruct p as [|b p]; [apply np_ret|]); [cbn in L; lia|]. cbn [parse_loop13].
  destruct (rec_bound13 (b :: p)) as [| |k] eqn:Hb; [apply np_ret|apply np_fail|].
  pose proof (rec_bound13_pos _ _ Hb ltac:(discriminate)) as K.
  assert (L2 : (length (skipn k (b :: p)) <= fuel)%nat) by (rewrite skipn_length; cbn [length] in *; lia).
  npauto ltac:(first [apply np_rec_parse | apply IH; exact L2]).
Qed.
Lemma np_enqueue b r : np (enqueue13 b r).
Proof. unfold enqueue13. npauto idtac. Qed.
Lemma np_plain ct f : np (create_plain13 ct false f).
Proof. unfold create_plain13. npauto ltac:(apply np_enqueue). Qed.
Lemma fit_ctx s ep : calm s -> fit (ctx_keys s (ctx13 s ep)).
Proof. intros (_ & (A & B & C & D) & _). unfold ctx_keys. destruct (ctx13 s ep); assumption. Qed.
Lemma calm_bump c ep e : calm e -> calm (bump_seq c ep e).
Proof.
  intro H. destruct c; [exact H|exact H|]. unfold bump_seq. cbv zeta. destruct (3 <=? ep); [|exact H].
  match goal with |- calm (if ?b then _ else _) => destruct b end; exact H.
Qed.
Lemma np_cipher_tail ct ep f s : calm s -> np (
  let c := ctx13 s ep in let sq := ctx_seq s c in
  let inner := f ++ [ct] in
  let! i := suite_provider13 E in
  match ctx_keys s c with
  | None => fail ECrypto
  | Some k =>
    let hdr := s_uhdr13 ep sq (len inner + N.of_nat (s13_tag i)) in
    if Nat.ltb 32 (length (ek_sn k)) then panic 1046
    else
      match e_seal E (ek_suite k) (ek_key k) (nonce_xor (ek_iv k) sq) hdr inner with
      | None => fail ECrypto
      | Some body =>
        let mask := if Nat.leb 16 (length body)
                    then e_mask E (s13_id i) (ek_sn k) (firstn 16 body) else [] in
        let app := can_append13 s (5 + len body) in
        if negb app && (c_max_tx (g_cfg s) <=? len (g_tx s)) then fail ETxFull
        else if MAX_SEQ <=? sq then fail ECrypto
        else
          modify (bump_seq c ep) ;;;
          enqueue13 app (xor_seq 2 mask (s_rec13 CT_APP ep sq body))
      end
  end).
Proof.
  intros C. cbv zeta. apply np_bind; [apply np_provider|intro i].
  pose proof (fit_ctx s ep C) as F. destruct (ctx_keys s (ctx13 s ep)) as [k|]; [|apply np_fail]. cbn [fit] in F.
  destruct (Nat.ltb_spec 32 (length (ek_sn k))); [lia|].
  npauto ltac:(first [apply np_enqueue
    | apply np_modify; intros zz ZH; apply calm_bump; exact ZH]).
Qed.
Lemma np_cipher ct ep f : np (create_cipher13 E ct ep false f).
Proof. unfold create_cipher13. cbn [when]. apply np_get. intros s C. apply np_bind; [apply np_ret|intros _]. apply (np_cipher_tail ct ep f s C). Qed.
Lemma np_cipher_saved ct ep f e : calm e -> (length (g_saved e) < 12)%nat -> wp (create_cipher13 E ct ep true f) (fun r e' => calm e' /\ ~ is_panic r) e.
Proof.
  intros C L. unfold create_cipher13. cbn [when]. apply wp_bind, wp_get. apply wp_bind. unfold save13. apply wp_bind, wp_get.
  destruct (Nat.leb_spec 12 (length (g_saved e))); [lia|]. apply wp_modify. apply (np_cipher_tail ct ep f e C). exact C.
Qed.
Lemma np_resend_loop es : np (resend_loop13 E es).
Proof. induction es as [|x es IH]; cbn [resend_loop13]; npauto ltac:(first [exact IH|apply np_plain|apply np_cipher]). Qed.
Lemma np_resend : np (flight_resend13 E).
Proof. unfold flight_resend13. npauto ltac:(apply np_resend_loop). Qed.

(** *** Keys *)
Lemma derive_calm sec e : calm e -> wp (derive_epoch_keys E sec) (fun r e' => e' = e /\ ~ is_panic r /\ match r with Ok k => (length (ek_sn k) <= 32)%nat | _ => True end) e.
Proof.
  intros ((cs & i & C1 & C2) & _). destruct (PV _ _ C2) as (V1 & V2 & V3).
  assert (G : forall A (Q : Prop) (x : error), Q -> e = e /\ ~ is_panic (@Err A x) /\ Q) by (intros A Q x; split; [reflexivity|split; [intros []|assumption]]).
  unfold derive_epoch_keys, hash_alg13, suite_provider13, label13.
  apply wp_bind, wp_bind, wp_get. rewrite C1. apply wp_ret. apply wp_bind, wp_bind, wp_get. rewrite C1, C2. apply wp_ret.
  apply wp_bind, wp_of_opt. destruct (hkdf_expand_label13 _ _ _ _ _ _) as [k|]; [|apply G; exact I].
  apply wp_bind, wp_of_opt. destruct (hkdf_expand_label13 _ _ _ _ _ _) as [iv|] eqn:Hiv; [|apply G; exact I].
  apply wp_bind, wp_of_opt. destruct (hkdf_expand_label13 _ _ _ (str "sn"%string) _ _) as [sn|] eqn:Hs; [|apply G; exact I].
  destruct (negb _); [apply wp_fail; apply G; exact I|].
  apply (label13_eq _ _ _ _ _ _ _ HM V3) in Hiv. rewrite Hiv, V1. cbn [Nat.eqb negb]. apply wp_ret.
  split; [reflexivity|]. split; [intros []|]. cbn [ek_sn]. pose proof (label13_le _ _ _ _ _ _ _ Hs). lia.
Qed.
Lemma next_secret_calm sec e : calm e -> wp (derive_next_secret E sec) (fun r e' => e' = e /\ ~ is_panic r) e.
Proof.
  intros ((cs & i & C1 & C2) & _). unfold derive_next_secret, hash_alg13, label13. apply wp_bind, wp_bind, wp_get. rewrite C1. apply wp_ret, wp_of_opt.
  destruct (hkdf_expand_label13 _ _ _ _ _ _); (split; [reflexivity|intros []]).
Qed.
Lemma np_update_send : np (update_send_keys E).
Proof.
  intros e C. unfold update_send_keys. apply wp_bind, wp_get. destruct (g_app_send e) as [cur|] eqn:Hc; [|split; [exact C|intros []]].
  apply wp_bind, wp_modify. destruct C as (C1 & (X1 & X2 & X3 & X4) & C3). rewrite Hc in X3. cbn [fit] in X3.
  assert (H1 : calm (set_g_app_send None e)) by (split; [exact C1|split; [unfold roomy; cbn; auto|exact C3]]).
  apply wp_bind. wpuse (next_secret_calm (ek_secret cur) _ H1). intros [nx|?|?] e1 [-> N]; [|split; [exact H1|intros []]|destruct N; exact I].
  apply wp_bind. wpuse (derive_calm nx _ H1). intros [ks|?|?] e1 (-> & N2 & K2); [|split; [exact H1|intros []]|destruct N2; exact I].
  apply wp_bind, wp_modify, wp_bind, wp_modify, wp_bind. unfold wp at 1, draw13. cbn [fst snd]. apply wp_modify.
  split; [|intros []]. split; [exact C1|]. split; [unfold roomy; cbn; auto|exact C3].
Qed.
Lemma np_update_recv : np (update_recv_keys E).
Proof.
  intros e C. unfold update_recv_keys. apply wp_bind, wp_get. destruct (rev (g_recv e)) as [|lt rs]; [split; [exact C|intros []]|].
  apply wp_bind. wpuse (next_secret_calm (ek_secret (re_keys lt)) _ C). intros [nx|?|?] e1 [-> N]; [|split; [exact C|intros []]|destruct N; exact I].
  apply wp_bind. wpuse (derive_calm nx _ C). intros [ks|?|?] e1 (-> & N2 & K2); [|split; [exact C|intros []]|destruct N2; exact I].
  destruct C as (C1 & (X1 & X2 & X3 & X4) & C3). apply wp_bind. unfold push_recv.
  apply wp_when; intro L.
  - apply wp_modify. apply wp_bind, wp_get. cbn [g_recv set_g_recv]. apply Nat.leb_le in L.
    assert (L3 : length (tl (g_recv e)) = 3%nat) by (destruct (g_recv e); cbn in *; lia). rewrite L3. cbn [Nat.leb]. apply wp_modify.
    split; [|intros []]. split; [exact C1|]. split; [|exact C3]. unfold roomy. cbn [g_hs_send g_prev g_app_send g_recv set_g_recv].
    do 3 (split; [assumption|]). rewrite app_length, L3. cbn. lia.
  - apply wp_bind, wp_get. rewrite L. apply wp_modify. apply Nat.leb_gt in L.
    split; [|intros []]. split; [exact C1|]. split; [|exact C3]. unfold roomy. cbn [g_hs_send g_prev g_app_send g_recv set_g_recv].
    do 3 (split; [assumption|]). rewrite app_length. cbn. lia.
Qed.
Lemma calm_prev e : calm e -> calm (set_g_prev None e).
Proof. intros (C1 & (X1 & X2 & X3 & X4) & C3). split; [exact C1|]. split; [unfold roomy; cbn; auto|exact C3]. Qed.
Lemma np_ack d : np (process_ack E d).
Proof.
  unfold process_ack. npauto ltac:(first [apply np_update_send
    | apply np_modify; intros zz ZH; exact (calm_prev zz ZH)]).
Qed.
Lemma np_classify r : np (classify_record13 E r).
Proof.
  unfold classify_record13. npauto ltac:(first [apply np_ack | apply np_modify; intros zz ZH; destruct (g_cn zz); exact ZH]).
Qed.
Lemma np_classify_all rs : np (classify_all13 E rs).
Proof. induction rs as [|r rs IH]; cbn [classify_all13]; npauto ltac:(first [exact IH|apply np_classify]). Qed.
Lemma np_bsearch {B} cs (k : bool * nat -> M Eng13 B) : (forall t, np (k (e_bsearch E t cs))) -> np (bind (bsearch13 E cs) k).
Proof. intros H e C. unfold bsearch13. apply wp_bind, wp_bind. unfold wp at 1, draw13. cbn [fst snd]. apply wp_ret. apply H. exact C. Qed.
Lemma np_insert inc : inc <> [] -> np (insert_incoming13 E inc).
Proof.
  intros NE.
  assert (Ins : forall i, np (modify (fun s => set_g_rx (insert_at i inc (g_rx s)) s))).
  { intro i. apply np_modify. intros e (Z1 & Z2 & Z3). split; [exact Z1|]. split; [exact Z2|]. apply Forall_at; assumption. }
  assert (Ins2 : forall i, np (modify (fun s => set_g_rx (insert_at i inc (g_rx s)) (set_g_rrn (fold_left note_rrn inc (g_rrn s)) s)))).
  { intro i. apply np_modify. intros e (Z1 & Z2 & Z3). split; [exact Z1|]. split; [exact Z2|]. apply Forall_at; assumption. }
  assert (Rep : forall i, np (modify (fun s => set_g_rx (set_nth i inc (g_rx s)) (set_g_rrn (fold_left note_rrn inc (g_rrn s)) s)))).
  { intro i. apply np_modify. intros e (Z1 & Z2 & Z3). split; [exact Z1|]. split; [exact Z2|]. apply Forall_set_nth; assumption. }
  unfold insert_incoming13. apply np_get. intros s0 C0. destruct (_ <=? _); [apply np_fail|]. destruct inc as [|r inc']; [apply np_ret|].
  set (inc := r :: inc') in *. clearbody inc. destruct (first_hs r) as [h|].
  - unfold insert_handshake13. apply np_get. intros s C.
    apply np_bind; [npauto ltac:(apply np_resend)|intros _]. destruct (_ <? _); [apply np_ret|]. destruct (_ && _); [apply np_fail|].
    apply np_bsearch. intro t.
    match goal with |- context [e_bsearch E t ?cs] => pose proof (BS t cs) as K; destruct (e_bsearch E t cs) as [fd i] end.
    destruct fd; [|apply Ins2]. destruct K as [K _]. specialize (K eq_refl). rewrite nth_error_map in K.
    destruct (nth_error (g_rx s) i) as [x|] eqn:Hx; [|discriminate]. destruct C as (_ & _ & Cf).
    assert (X : x <> []) by (apply nth_error_In in Hx; unfold filled in Cf; rewrite Forall_forall in Cf; auto).
    destruct x as [|r1 x]; [congruence|]. destruct (_ || _); [apply Rep|apply np_ret].
  - unfold insert_non_handshake13. apply np_get. intros s C. apply np_bsearch. intro t. destruct (e_bsearch E t _) as [fd i]. destruct fd; [apply np_ret|apply Ins].
Qed.
Lemma np_parse p : np (eng13_parse_packet E p).
Proof.
  unfold eng13_parse_packet, records_parse13. apply np_bind; [apply np_bind; [apply np_parse_loop, Nat.le_refl|intro; apply np_classify_all]|].
  intros [|r rs]; [apply np_ret|apply np_insert; discriminate].
Qed.

(** *** The next handshake message *)
Lemma skip_frags q : forall n x l, skip_while f_handled (flat_map r_hs (firstn n (skip_while rec_handled q))) = x :: l ->
  exists l', skip_while f_handled (flat_map r_hs q) = x :: l'.
Proof.
  assert (SH : forall a b, forallb f_handled a = true -> skip_while f_handled (a ++ b) = skip_while f_handled b).
  { induction a as [|y a IH]; intros b H; [reflexivity|]. cbn in *. apply andb_true_iff in H as [H1 H2]. rewrite H1. auto. }
  assert (FN : forall n (r : list Rec12) x l, skip_while f_handled (flat_map r_hs (firstn n r)) = x :: l -> exists l', skip_while f_handled (flat_map r_hs r) = x :: l').
  { intros n r x l H. rewrite <- (firstn_skipn n r), flat_map_app.
    remember (flat_map r_hs (firstn n r)) as a. clear Heqa. revert H. induction a as [|y a IH]; cbn; [discriminate|].
    destruct (f_handled y); [exact IH|]. intro H. injection H as -> ->. eauto. }
  induction q as [|r q IH]; intros n x l H; [cbn in H; rewrite firstn_nil in H; discriminate|].
  cbn [skip_while] in H. destruct (rec_handled r) eqn:Hr; [|apply FN in H; exact H].
  apply IH in H. cbn [flat_map]. rewrite SH; [exact H|]. unfold rec_handled in Hr. destruct (r_hs r); [reflexivity|exact Hr].
Qed.
Lemma complete_first s w : has_complete13 s w = true -> exists f l, skip_while f_handled (all_frags (g_rx s)) = f :: l /\ f_type f = w.
Proof.
  unfold has_complete13. destruct (pending_frags s) as [|f l] eqn:Hp; [discriminate|]. destruct (negb (f_seq f =? _)); [discriminate|].
  destruct (f_type f =? w) eqn:Hw; [|discriminate]. intros _. unfold pending_frags in Hp. apply skip_frags in Hp as [l' Hl].
  exists f, l'. split; [exact Hl|]. apply N.eqb_eq, Hw.
Qed.
Lemma calm_mark e : calm e -> calm (set_g_rx (mark_run (g_rx e)) e).
Proof. intros (Z1 & Z2 & Z3). split; [exact Z1|]. split; [exact Z2|]. apply map_acc_filled, Z3. Qed.
Lemma ku_body u s l body rest : p_body13 u MT_KeyUpdate s l = Some (body, rest) -> exists b, body = D_KeyUpdate b.
Proof.
  unfold p_body13.
  change (MT_KeyUpdate =? MT_ClientHello) with false. change (MT_KeyUpdate =? MT_ServerHello) with false.
  change (MT_KeyUpdate =? MT_EncryptedExtensions) with false. change (MT_KeyUpdate =? MT_Certificate) with false.
  change (MT_KeyUpdate =? MT_CertificateRequest) with false. change (MT_KeyUpdate =? MT_CertificateVerify) with false.
  change (MT_KeyUpdate =? MT_Finished) with false. change (MT_KeyUpdate =? MT_KeyUpdate) with true. cbv iota.
  intro H. destruct (p_u8 l) as [[b r]|]; [|discriminate]. destruct r; [|discriminate].
  destruct (b =? 0); [|destruct (b =? 1); [|discriminate]]; injection H as <- _; eauto.
Qed.
Lemma next_key_update e : calm e -> wp (next_handshake13_no_transcript MT_KeyUpdate) (fun r e' => calm e' /\ ~ is_panic r /\
  match r with Ok (Some m) => exists b, n_body m = D_KeyUpdate b | _ => True end) e.
Proof.
  intros C. unfold next_handshake13_no_transcript, next_handshake13_gen. apply wp_bind, wp_get.
  assert (Z : forall x : error, calm e /\ ~ is_panic (@Err (option Msg13) x) /\ True) by (split; [exact C|split; [intros []|exact I]]).
  destruct (has_complete13 e MT_KeyUpdate) eqn:Hc; cbn [negb]; [|split; [exact C|split; [intros []|exact I]]].
  destruct (complete_first _ _ Hc) as (f & l & Hf & Ht). rewrite Hf, Ht. destruct (Nat.ltb _ _); [apply Z|]. destruct (negb _); [apply Z|].
  destruct (p_body13 false MT_KeyUpdate (g_suite e) _) as [[body rest]|] eqn:Hb.
  - apply wp_bind, wp_modify. destruct (_ && _); [split; [apply calm_mark, C|split; [intros []|exact I]]|].
    cbn [when]. apply wp_bind, wp_ret, wp_ret. split; [apply calm_mark, C|]. split; [intros []|]. cbn [n_body].
    apply ku_body in Hb. exact Hb.
  - apply wp_bind, wp_modify, wp_fail. split; [apply calm_mark, C|split; [intros []|exact I]].
Qed.

(** *** The other operations of the engine *)
Lemma np_key_update b : np (create_key_update E b).
Proof.
  intros e C. unfold create_key_update, flight_begin13. apply wp_bind, wp_bind. unfold wp at 1, draw13. cbn [fst snd]. apply wp_modify.
  apply wp_bind, wp_get, wp_bind, wp_modify, wp_bind.
  match goal with |- wp _ _ ?s => assert (C2 : calm s) by exact C end.
  wpuse (np_cipher_saved CT_HS (g_epoch e) (s_hs_header MT_KeyUpdate 1 (g_next_hs e) 0 1 ++ [if b then 1 else 0]) _ C2); [cbn; lia|].
  intros [u|?|?] e1 [C3 N]; [apply wp_modify; split; [exact C3|intros []]|split; [exact C3|intros []]|destruct N; exact I].
Qed.
Lemma np_send_ack : np (send_ack13 E).
Proof. unfold send_ack13, send_ack_inner. npauto ltac:(apply np_cipher). Qed.
Lemma np_advance : np advance_peer.
Proof. unfold advance_peer. npauto ltac:(apply np_draw). Qed.
Lemma np_take : np take_needs_key_update.
Proof. unfold take_needs_key_update. npauto ltac:(apply np_draw). Qed.
Lemma np_cancel : np cancel_flights.
Proof. unfold cancel_flights. npauto ltac:(apply np_draw). Qed.
Lemma np_rand n : np (rand_bytes13 E n).
Proof. unfold rand_bytes13. npauto ltac:(apply np_draw). Qed.
Lemma calm_schedule now e : calm e -> calm (maybe_schedule_ack now e).
Proof. intro C. unfold maybe_schedule_ack. repeat match goal with |- calm (if ?b then _ else _) => destruct b end; exact C. Qed.
Lemma np_timeout now : np (eng13_handle_timeout E now).
Proof.
  unfold eng13_handle_timeout, maybe_flush_ack.
  npauto ltac:(first [apply np_cipher | apply np_resend | apply np_modify; intros zz ZH; exact (calm_schedule now zz ZH)]).
Qed.

(** *** Endpoints *)
Section Endpoint.
Context {S : Type} (ge : S -> Eng13).
Definition npx {A} (m : M S A) : Prop := forall s, calm (ge s) -> wp m (fun r s' => calm (ge s') /\ ~ is_panic r) s.
Lemma npx_ret {A} (a : A) : npx (ret a).
Proof. intros s C. split; [exact C|intros []]. Qed.
Lemma npx_fail {A} x : npx (@fail S A x).
Proof. intros s C. split; [exact C|intros []]. Qed.
Lemma npx_modify f : (forall s, ge (f s) = ge s) -> npx (modify f).
Proof. intros H s C. apply wp_modify. rewrite H. split; [exact C|intros []]. Qed.
Lemma npx_bind {A B} (m : M S A) (k : A -> M S B) : npx m -> (forall a, npx (k a)) -> npx (bind m k).
Proof.
  intros H K s C. apply wp_bind. eapply wp_mono; [exact (H s C)|]. intros [a|x|n] s1 [C1 N]; [exact (K a s1 C1)|split; [exact C1|intros []]|destruct N; exact I].
Qed.
Lemma npx_get {B} (k : S -> M S B) : (forall s, calm (ge s) -> npx (k s)) -> npx (bind get k).
Proof. intros H s C. apply wp_bind, wp_get. exact (H s C s C). Qed.
Lemma npx_when b m : npx m -> npx (when b m).
Proof. intros H. destruct b; [exact H|apply npx_ret]. Qed.
Lemma npx_iter {A} (f : A -> M S unit) l : (forall a, npx (f a)) -> npx (iterM f l).
Proof. intros H. induction l as [|a l IH]; cbn [iterM]; [apply npx_ret|]. apply npx_bind; [apply H|intro; exact IH]. Qed.
Lemma npx_zoom {A} (p : Eng13 -> S -> S) (m : M Eng13 A) : (forall e s, ge (p e s) = e) -> np m -> npx (zoom ge p m).
Proof. intros H M s C. apply wp_zoom. eapply wp_mono; [exact (M _ C)|]. intros r e. rewrite H. auto. Qed.
Lemma npx_public m : npx m -> npx (public m).
Proof. intros H s C. specialize (H s C). unfold wp, public in *. destruct (m s) as [[a|x|n] s1]; try exact H. destruct x; cbn in *; tauto. Qed.
Lemma npx_next {B} (p : Eng13 -> S -> S) (k : option Msg13 -> M S B) : (forall e s, ge (p e s) = e) ->
  (forall o, match o with Some m => exists b, n_body m = D_KeyUpdate b | None => True end -> npx (k o)) ->
  npx (bind (zoom ge p (next_handshake13_no_transcript MT_KeyUpdate)) k).
Proof.
  intros H K s C. apply wp_bind, wp_zoom. eapply wp_mono; [exact (next_key_update _ C)|]. intros r e (C1 & N & B1).
  destruct r as [o|x|n]; [|rewrite H; split; [exact C1|intros []]|destruct N; exact I]. apply K; [destruct o; exact B1|rewrite H; exact C1].
Qed.
(** A loop whose rounds keep the state in a set [fin] *)
Lemma npx_repeats (fin : S -> Prop) (body : M S bool) :
  (forall s, fin s -> calm (ge s) -> wp body (fun r s' => (calm (ge s') /\ ~ is_panic r) /\ (r = Ok false -> fin s')) s) ->
  forall s x, repeats body s x -> fin s -> calm (ge s) -> calm (ge (snd x)) /\ ~ is_panic (fst x).
Proof.
  intros B s x R. induction R as [s s' H|s s' x H R IH|s s' e H|s s' n H]; intros F C; specialize (B s F C); unfold wp in B; rewrite H in B; cbn in *.
  - split; [apply B|intros []].
  - apply IH; [apply B; reflexivity|apply B].
  - split; [apply B|intros []].
  - exfalso. apply B. exact I.
Qed.
End Endpoint.

End NoPanic.
