(** The sending side of the DTLS 1.2 engine. *)
From Verif Require Import Prelude PreludeFacts Types Codec Codec12 Record12 Monad MonadFacts Timer Env
  Config Aead Prf Window Context12 Engine12 Client12 Engine12Frame.

Lemma eng_eta s : set_en_saved (en_saved s) s = s.
Proof. destruct s; reflexivity. Qed.
Lemma eng_eta_orc s : set_en_orc (en_orc s) s = s.
Proof. destruct s; reflexivity. Qed.

Definition bump (ep : N) (s : Eng12) : Eng12 :=
  if ep =? 0 then set_en_seq0 (en_seq0 s + 1) s else set_en_seqn (en_seqn s + 1) s.
Definition cur_seq (ep : N) (s : Eng12) : N := if ep =? 0 then en_seq0 s else en_seqn s.

(** The bytes that follow the record header. *)
Definition payload_of (E : Env) (s : Eng12) (ct ep : N) (f frag : bytes) : Prop :=
  if ep =? 0 then frag = f
  else exists iv explicit nonce c,
    own_iv s = Some iv /\
    (en_enl s = O /\ explicit = [] \/ en_enl s = 8%nat /\ exists t, explicit = e_rand E t 8) /\
    record_nonce (en_enl s) iv 1 (en_seqn s) explicit = Some nonce /\
    cipher_seal E (own_cipher s) nonce (aad12 ct 1 (en_seqn s) (u16 (len f))) f = Some c /\
    frag = explicit ++ c.

Definition overhead (s : Eng12) (ep : N) : N := if 1 <=? ep then N.of_nat (en_minp s) else 0.

Lemma seal_record_spec E ct f s :
  wp (seal_record E ct (en_seqn s) f) (fun r s' =>
    exists o, s' = set_en_orc o s /\
    match r with
    | Ok frag => payload_of E s ct 1 f frag
    | Err e => e = ECrypto
    | Panic n => n = 800
    end) s.
Proof.
  unfold seal_record. apply wp_bind, wp_get.
  destruct (own_iv s) as [iv|] eqn:Hiv;
    [|wps; exists (en_orc s); rewrite eng_eta_orc; auto].
  apply wp_bind.
  apply wp_mono with (P := fun r s' => exists o, s' = set_en_orc o s /\
    match r with
    | Ok explicit => en_enl s = O /\ explicit = [] \/
                     en_enl s = 8%nat /\ exists t, explicit = e_rand E t 8
    | Err e => e = ECrypto
    | Panic n => False
    end).
  { destruct (en_enl s) as [|[|[|[|[|[|[|[|[|n]]]]]]]]]; wps;
      try (exists (en_orc s); rewrite eng_eta_orc; auto; fail).
    unfold rand_bytes, draw. wps. eexists. split; [reflexivity|]. right. split; eauto. }
  intros r s' (o & -> & Hr). destruct r as [explicit|e|n]; [|exists o; auto|contradiction].
  destruct (record_nonce _ _ _ _ _) as [nonce|] eqn:Hn; [|wps; exists o; auto].
  destruct (cipher_seal _ _ _ _ _) as [c|] eqn:Hc; wps; exists o; (split; [reflexivity|]); auto.
  unfold payload_of. cbn. exists iv, explicit, nonce, c. auto.
Qed.

Lemma create_record_spec E ct ep save fn f s :
  wp (create_record_inner E ct ep save fn f) (fun r s' =>
    exists o sv,
    let s1 := set_en_orc o (set_en_saved sv s) in
    match r with
    | Ok _ =>
      sv = (if save then en_saved s ++ [(ct, ep, f)] else en_saved s) /\
      (ep <> 0 -> en_suite s <> None) /\
      exists frag, payload_of E s ct ep f frag /\
        let rec := s_rec12 ct V_DTLS12 (if ep =? 0 then 0 else 1) (cur_seq ep s) frag in
        let app := can_append s fn (13 + len f + overhead s ep) in
        (app = false -> len (en_tx s) < c_max_tx (en_cfg s)) /\
        s' = set_en_tx (if app then append_last rec (en_tx s) else en_tx s ++ [rec]) (bump ep s1)
    | Err e => (sv = en_saved s \/ save = true /\ sv = en_saved s ++ [(ct, ep, f)]) /\
               s' = s1 /\ (e = EInvalidState \/ e = ETxFull \/ e = ECrypto)
    | Panic n => (sv = en_saved s \/ save = true /\ sv = en_saved s ++ [(ct, ep, f)]) /\
                 s' = s1 /\ n = 800
    end) s.
Proof.
  unfold create_record_inner. apply wp_bind, wp_get. apply wp_bind.
  apply wp_mono with (P := fun r s' => s' = s /\ (r = Err EInvalidState \/ r = Ok tt /\ (ep <> 0 -> en_suite s <> None))).
  { destruct (1 <=? ep) eqn:He; [destruct (en_suite s)|]; wps; (split; [reflexivity|]); auto; right; (split; [reflexivity|]); intros; try discriminate; lia. }
  intros r s' [-> [-> | [-> Hsu]]].
  { exists (en_orc s), (en_saved s). cbn. rewrite eng_eta, eng_eta_orc. auto. }
  cbn. apply wp_bind.
  pose (sv := if save then en_saved s ++ [(ct, ep, f)] else en_saved s).
  apply wp_mono with (P := fun r s' => r = Ok tt /\ s' = set_en_saved sv s).
  { destruct save; cbn [when]; wps; split; auto. unfold sv. rewrite eng_eta. reflexivity. }
  intros r s' [-> ->]. cbn [fst snd].
  assert (Hsv : sv = en_saved s \/ save = true /\ sv = en_saved s ++ [(ct, ep, f)]).
  { unfold sv. destruct save; auto. }
  fold (overhead s ep). set (app := can_append s fn (13 + len f + overhead s ep)).
  destruct (negb app && (c_max_tx (en_cfg s) <=? len (en_tx s))) eqn:Hq.
  { wps. exists (en_orc s), sv. cbn. split; [exact Hsv|]. split; [|auto].
    destruct s; reflexivity. }
  assert (Happ : app = false -> len (en_tx s) < c_max_tx (en_cfg s)).
  { intros ->. cbn in Hq. lia. }
  apply wp_bind.
  apply wp_mono with (P := fun r s' => exists o, s' = set_en_orc o (set_en_saved sv s) /\
     match r with Ok frag => payload_of E s ct ep f frag | Err e => e = ECrypto | Panic n => n = 800 end).
  { destruct (1 <=? ep) eqn:He.
    - replace (ep =? 0) with false by lia.
      pose proof (seal_record_spec E ct f (set_en_saved sv s)) as H. cbn [en_seqn set_en_saved] in H.
      eapply wp_mono; [exact H|]. intros r s' (o & -> & Hr). exists o. split; [reflexivity|].
      destruct r; auto. unfold payload_of in Hr |- *. replace (ep =? 0) with false by lia. exact Hr.
    - replace ep with 0 by lia. cbn. wps. exists (en_orc s). split.
      + destruct s; reflexivity.
      + reflexivity. }
  intros r s' (o & -> & Hr). destruct r as [frag|e|n].
  - cbn [fst snd]. apply wp_bind.
    apply wp_mono with (P := fun r s' => r = Ok tt /\ s' = bump ep (set_en_orc o (set_en_saved sv s))).
    { unfold bump. destruct (ep =? 0); wps; auto. }
    intros r s' [-> ->]. cbn [fst snd].
    exists o, sv.
    destruct app eqn:Ha; wps; cbn [fst snd].
    all: split; [reflexivity|]; split; [exact Hsu|]; exists frag; split; [exact Hr|]; split; [exact Happ|].
    all: f_equal; unfold bump, cur_seq; destruct (ep =? 0); reflexivity.
  - exists o, sv. split; [exact Hsv|]. split; auto.
  - exists o, sv. split; [exact Hsv|]. split; auto.
Qed.

Lemma concat_append_last d q : q <> [] -> concat (append_last d q) = concat q ++ d.
Proof.
  intros H. unfold append_last. destruct (rev q) as [|b r] eqn:Hr.
  - apply (f_equal (@rev _)) in Hr. rewrite rev_involutive in Hr. contradiction.
  - apply (f_equal (@rev _)) in Hr. rewrite rev_involutive in Hr. cbn in Hr. subst q.
    rewrite !concat_app. cbn. rewrite !app_nil_r, app_assoc. reflexivity.
Qed.
