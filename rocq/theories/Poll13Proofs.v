(** Polling for output, DTLS 1.3. *)
From Verif Require Import Prelude PreludeFacts Types Codec Codec12 Codec13 Record12 Record13 Monad MonadFacts Timer
  Env Config Aead Prf Window SeqRecon Engine12 Rx12Proofs Queue12Proofs Client12 Engine13 Client13 Server13 Frame13
  History12 Poll12Proofs History13 Lift13 Send13Proofs Rx13Proofs.

(** ** Application data records carry no handshake messages *)

Lemma app_plain_of ct ep sq n frag buf : app_plain (rec13_of ct ep sq n frag buf).
Proof. intros H. cbn in *. subst ct. reflexivity. Qed.
Lemma app_plain_parsed13 buf r e : p_parsed13 buf = Some (r, e) -> app_plain r.
Proof.
  unfold p_parsed13. destruct (p_rec13 buf) as [[h rest]|]; [|discriminate]. intros H.
  injection H; intros; subst r. apply app_plain_of.
Qed.
Lemma app_plain_rec13 E raw s :
  wp (rec_parse13 E raw) (fun o _ => match o with Ok (Some r) => app_plain r | _ => True end) s.
Proof.
  unfold rec_parse13. apply wp_bind, wp_get, wp_bind.
  eapply wp_mono with (P := fun _ _ => True); [exact I|]. intros [buf|x|n] s1 _; auto.
  destruct (p_parsed13 buf) as [[r he]|] eqn:Hp; [|exact I].
  destruct (_ || _); [exact (app_plain_parsed13 _ _ _ Hp)|].
  destruct (negb _); [exact I|]. apply wp_bind, wp_suite_provider.
  destruct (g_suite s1) as [cs|]; [|exact I]. destruct (find13 E cs) as [i|]; [|exact I].
  destruct (Nat.ltb _ _); [exact I|]. destruct (recv_keys13 _ _) as [k|]; [|exact I].
  destruct (e_open _ _ _ _ _ _) as [pt|]; [|exact I]. apply wp_bind, wp_modify.
  destruct (inner_type pt) as [[t c]|]; [apply app_plain_of|exact I].
Qed.
Definition ap13_frame E := rx13_frame E app_plain (fun r H => H) app_plain_mark
  (fun raw s _ => app_plain_rec13 E raw s).
Lemma reach13_app_plain E cfg cert key h s :
  reach13 E cfg cert key h s -> Forall (Forall app_plain) (g_rx (end13_eng s)).
Proof.
  apply rx13_invariant; [intros r H; exact H|exact app_plain_mark|intros; apply app_plain_rec13].
Qed.

(** ** Engine *)

(** What is waiting to be returned by the engine, in order. *)
Definition eng13_pending (e : Eng13) : list Output :=
  (if g_release e then map (fun r => OAppData (r_frag r)) (filter unhandled_app (concat (g_rx e)))
   else []) ++
  map OPacket (g_tx e) ++
  (if is_some (g_cn e) && negb (g_cn_rep e) then [OCloseNotify] else []).

(** What polling does to the engine when it takes nothing out. *)
Definition purged13 (e : Eng13) : Eng13 := set_g_rx (purge_handled (g_rx e)) e.
Definition settled13 (now : N) (e : Eng13) : Eng13 := maybe_schedule_ack now (purged13 e).

Lemma schedule_eq now s : exists d, maybe_schedule_ack now s = set_g_ackdl d s.
Proof.
  unfold maybe_schedule_ack. destruct (negb (handshake_in_progress s)); [eexists; reflexivity|].
  destruct (is_some _); [exists (g_ackdl s); destruct s; reflexivity|].
  destruct (negb (ack_help_needed s)); [exists (g_ackdl s); destruct s; reflexivity|]. eexists; reflexivity.
Qed.
Lemma schedule_idem now s : maybe_schedule_ack now (maybe_schedule_ack now s) = maybe_schedule_ack now s.
Proof.
  unfold maybe_schedule_ack at 2 3.
  assert (K : forall d, handshake_in_progress (set_g_ackdl d s) = handshake_in_progress s) by reflexivity.
  destruct (negb (handshake_in_progress s)) eqn:H1.
  { unfold maybe_schedule_ack. rewrite K, H1. reflexivity. }
  destruct (is_some (g_ackdl s)) eqn:H2.
  { unfold maybe_schedule_ack. rewrite H1, H2. reflexivity. }
  destruct (negb (ack_help_needed s)) eqn:H3.
  { unfold maybe_schedule_ack. rewrite H1, H2, H3. reflexivity. }
  unfold maybe_schedule_ack. rewrite K, H1. reflexivity.
Qed.
Lemma purged_idem e : purged13 (purged13 e) = purged13 e.
Proof. unfold purged13. cbn [g_rx set_g_rx]. rewrite purge_idem. reflexivity. Qed.
Lemma purged_settled now e : purged13 (settled13 now e) = settled13 now e.
Proof.
  unfold settled13. destruct (schedule_eq now (purged13 e)) as [d ->].
  unfold purged13. cbn [g_rx set_g_rx set_g_ackdl]. rewrite purge_idem. reflexivity.
Qed.
Lemma settled_idem now e : settled13 now (settled13 now e) = settled13 now e.
Proof. unfold settled13 at 1. rewrite purged_settled. apply schedule_idem. Qed.
Lemma settled_purged now e : settled13 now (purged13 e) = settled13 now e.
Proof. unfold settled13. rewrite purged_idem. reflexivity. Qed.

(** Polling starts from the purged queue. *)
Definition poll_from (cap now : N) : M Eng13 Output :=
  let! a := poll_app_data13 cap in
  match a with
  | Some o => ret o
  | None =>
    modify (maybe_schedule_ack now) ;;;
    let! p := poll_packet_tx13 cap in
    match p with
    | Some o => ret o
    | None =>
      let! s := get in
      if is_some (g_cn s) && negb (g_cn_rep s)
      then modify (set_g_cn_rep true) ;;; ret OCloseNotify
      else ret (OTimeout (poll_timeout13 s now))
    end
  end.
Lemma poll_from_eq cap now e : eng13_poll_output cap now e = poll_from cap now (purged13 e).
Proof. reflexivity. Qed.

Definition app_part (e : Eng13) : list Rec12 :=
  if g_release e then filter unhandled_app (concat (g_rx e)) else [].
Definition rest_part (e : Eng13) : list Output :=
  map OPacket (g_tx e) ++ (if is_some (g_cn e) && negb (g_cn_rep e) then [OCloseNotify] else []).
Lemma pending_parts e : eng13_pending e = map (fun r => OAppData (r_frag r)) (app_part e) ++ rest_part e.
Proof. unfold eng13_pending, app_part. destruct (g_release e); reflexivity. Qed.
Lemma app_part_purged e : app_part (purged13 e) = app_part e.
Proof. unfold app_part, purged13. cbn [g_release g_rx set_g_rx]. rewrite purge_filter. reflexivity. Qed.
Lemma app_part_settled now e : app_part (settled13 now e) = app_part e.
Proof.
  unfold settled13. destruct (schedule_eq now (purged13 e)) as [d ->]. rewrite <- (app_part_purged e). reflexivity.
Qed.
Lemma rest_part_settled now e : rest_part (settled13 now e) = rest_part e.
Proof. unfold settled13. destruct (schedule_eq now (purged13 e)) as [d ->]. reflexivity. Qed.
Lemma pending_settled now e : eng13_pending (settled13 now e) = eng13_pending e.
Proof. rewrite !pending_parts, app_part_settled, rest_part_settled. reflexivity. Qed.
Lemma pending_purged e : eng13_pending (purged13 e) = eng13_pending e.
Proof. rewrite !pending_parts, app_part_purged. reflexivity. Qed.

(** The last part of polling. *)
Definition poll_rest13 (cap now : N) : M Eng13 Output :=
  let! p := poll_packet_tx13 cap in
  match p with
  | Some o => ret o
  | None =>
    let! s := get in
    if is_some (g_cn s) && negb (g_cn_rep s)
    then modify (set_g_cn_rep true) ;;; ret OCloseNotify
    else ret (OTimeout (poll_timeout13 s now))
  end.
Lemma poll_rest13_pops cap now e :
  wp (poll_rest13 cap now) (fun r e' =>
    app_part e' = app_part e /\
    match rest_part e with
    | [] => r = Ok (OTimeout (poll_timeout13 e now)) /\ e' = e
    | o :: rest =>
      if out_size o <=? cap then r = Ok o /\ rest_part e' = rest
      else r = Ok (OTooSmall (out_size o)) /\ e' = e
    end) e.
Proof.
  unfold poll_rest13, poll_packet_tx13, rest_part. apply wp_bind, wp_bind, wp_get.
  destruct (g_tx e) as [|p l] eqn:Ht.
  - wps; cbn [map app].
    + split; [reflexivity|]. cbn. rewrite Ht, andb_false_r. replace (0 <=? cap) with true by lia. auto.
    + auto.
  - destruct (cap <? len p) eqn:Hc; wps; cbn [map app out_size].
    + replace (len p <=? cap) with false by lia. auto.
    + replace (len p <=? cap) with true by lia. auto.
Qed.

Lemma eng13_poll_pops cap now e : Forall (Forall app_plain) (g_rx e) ->
  wp (eng13_poll_output cap now) (fun r e' =>
    match eng13_pending e with
    | [] => r = Ok (OTimeout (poll_timeout13 (settled13 now e) now)) /\ e' = settled13 now e
    | o :: rest =>
      if out_size o <=? cap then r = Ok o /\ eng13_pending e' = rest
      else r = Ok (OTooSmall (out_size o)) /\ (e' = purged13 e \/ e' = settled13 now e)
    end) e.
Proof.
  intros Hq. unfold wp. rewrite poll_from_eq. change (wp (poll_from cap now) (fun r e' =>
    match eng13_pending e with
    | [] => r = Ok (OTimeout (poll_timeout13 (settled13 now e) now)) /\ e' = settled13 now e
    | o :: rest =>
      if out_size o <=? cap then r = Ok o /\ eng13_pending e' = rest
      else r = Ok (OTooSmall (out_size o)) /\ (e' = purged13 e \/ e' = settled13 now e)
    end) (purged13 e)).
  assert (Hq1 : Forall (Forall app_plain) (g_rx (purged13 e))) by (apply Forall_skip_while, Hq).
  pose proof (app_part_purged e) as Hap.
  unfold poll_from, poll_app_data13. apply wp_bind, wp_bind, wp_get.
  assert (Hnone : app_part e = [] -> wp (modify (maybe_schedule_ack now) ;;; poll_rest13 cap now) (fun r e' =>
      match eng13_pending e with
      | [] => r = Ok (OTimeout (poll_timeout13 (settled13 now e) now)) /\ e' = settled13 now e
      | o :: rest =>
        if out_size o <=? cap then r = Ok o /\ eng13_pending e' = rest
        else r = Ok (OTooSmall (out_size o)) /\ (e' = purged13 e \/ e' = settled13 now e)
      end) (purged13 e)).
  { intros Hn. apply wp_bind, wp_modify. fold (settled13 now e). wpuse poll_rest13_pops.
    intros r e' [Ha H]. rewrite app_part_settled, Hn in Ha. rewrite rest_part_settled in H.
    rewrite (pending_parts e), Hn, (pending_parts e'), Ha. cbn [map app].
    destruct (rest_part e) as [|o rest]; [exact H|]. destruct (out_size o <=? cap); [exact H|].
    destruct H. auto. }
  unfold app_part in Hap at 1. unfold app_part in Hnone.
  change (g_release (purged13 e)) with (g_release e) in *.
  destruct (g_release e) eqn:Hrel; cbn [negb]; [|apply wp_ret; exact (Hnone eq_refl)].
  rewrite find_filter. destruct (filter unhandled_app (concat (g_rx (purged13 e)))) as [|r l] eqn:Hf; cbn [hd_error].
  { apply wp_ret. apply Hnone. unfold app_part in Hap. rewrite Hrel in Hap. auto. }
  assert (Hin : In r (concat (g_rx (purged13 e))) /\ unhandled_app r = true).
  { apply (filter_In unhandled_app). rewrite Hf. left. reflexivity. }
  destruct Hin as [Hin Hun].
  assert (Hhs : r_hs r = []).
  { pose proof Hq1 as Hq2. apply Forall_concat in Hq2. rewrite Forall_forall in Hq2. apply (Hq2 r Hin).
    unfold unhandled_app, is_app in Hun. lia. }
  rewrite (pending_parts e), <- Hap. cbn [map app out_size]. destruct (cap <? len (r_frag r)) eqn:Hc.
  - wps. replace (len (r_frag r) <=? cap) with false by lia. auto.
  - rewrite Hhs. wps. replace (len (r_frag r) <=? cap) with true by lia.
    split; [reflexivity|]. rewrite pending_parts.
    replace (app_part _) with l; [reflexivity|]. unfold app_part. cbn [g_release g_rx set_g_rx].
    change (g_release (purged13 e)) with (g_release e). rewrite Hrel, mark_first_filter by exact Hq1.
    rewrite Hf. reflexivity.
Qed.

(** Polling does not see the difference. *)
Lemma poll_purged13 cap now e : eng13_poll_output cap now (purged13 e) = eng13_poll_output cap now e.
Proof. rewrite !poll_from_eq, purged_idem. reflexivity. Qed.
Lemma poll_settled13 cap now e : app_part e = [] ->
  eng13_poll_output cap now (settled13 now e) = eng13_poll_output cap now e.
Proof.
  intros Ha. rewrite !poll_from_eq, purged_settled.
  assert (K : forall x, app_part x = [] -> poll_app_data13 cap x = (Ok None, x)).
  { intros x Hx. unfold poll_app_data13, bind, get, ret. unfold app_part in Hx.
    destruct (g_release x); [|reflexivity]. cbn [negb]. rewrite find_filter, Hx. reflexivity. }
  assert (K2 : forall x, app_part x = [] -> poll_from cap now x = poll_rest13 cap now (maybe_schedule_ack now x)).
  { intros x Hx. unfold poll_from, bind at 1. rewrite (K x Hx). reflexivity. }
  rewrite (K2 (settled13 now e)), (K2 (purged13 e)).
  - unfold settled13. rewrite schedule_idem. reflexivity.
  - rewrite app_part_purged. exact Ha.
  - rewrite app_part_settled. exact Ha.
Qed.

(** ** Endpoint *)

Definition end13_certs (s : End13) : list bytes :=
  match s with XC c => xc_certs c | XS s => xs_certs s end.

(** What is waiting to be returned by [poll_output], in order. *)
Definition pending13 (s : End13) : list Output :=
  map (event_value (end13_certs s)) (end13_events s) ++ eng13_pending (end13_eng s).

Definition cert13_c (c : Client13) : Prop := In LE_PeerCert (xc_events c) -> xc_certs c <> [].
Definition cert13_s (c : Server13) : Prop := In LE_PeerCert (xs_events c) -> xs_certs c <> [].

Ltac civ := first [ apply pres_modify; intros ? Hc Hi; cbn in *; auto; fail
  | apply pres_modify; intros ? Hc Hi; cbn in *; apply in_app_or in Hi;
    destruct Hi as [Hi|[Hi|[]]]; [auto|discriminate] ].

(** Keying material is no certificate. *)
Lemma keying13_events E p e : wp (keying13 E p) (fun r _ =>
  match r with Ok k => ~ In LE_PeerCert k | _ => True end) e.
Proof.
  unfold keying13. destruct p as [p|]; [|exact (fun H => H)]. unfold wp.
  destruct (extract_srtp13 E p e) as [[km|x|n] e']; cbn; [|tauto|exact I].
  intros [H|H]; [discriminate|exact H].
Qed.

Lemma cert13_c_step E st : pres (fun a b => cert13_c a -> cert13_c b) (x_step E st).
Proof.
  pose proof (preorder_inv cert13_c) as PO.
  assert (HE : forall A (m : M Eng13 A), pres (fun a b => cert13_c a -> cert13_c b) (xeng m)).
  { intros. apply xf_eng. intros v c H. exact H. }
  assert (HX : forall es, pres (fun a b => cert13_c a -> cert13_c b) (hrr_extensions es)).
  { induction es as [|[t d] es IH]; cbn [hrr_extensions];
      presauto PO ltac:(first [apply IH | apply HE | civ]). }
  assert (HY : forall es, pres (fun a b => cert13_c a -> cert13_c b) (ee13_extensions es)).
  { induction es as [|[t d] es IH]; cbn [ee13_extensions];
      presauto PO ltac:(first [apply IH | apply HE | civ]). }
  destruct st; unfold_x_step;
    try (presauto PO ltac:(first [apply HE | apply HX | apply HY | civ]); fail).
  - (* AwaitCertificate *)
    apply (pres_bind _ PO); [apply HE|]. intros [m|]; [|apply (pres_ret _ PO)].
    destruct (n_body m) as [| | |ctx es| | | | |]; try apply (pres_panic _ PO).
    destruct (negb _); [apply (pres_fail _ PO)|]. destruct es as [|x es]; [apply (pres_fail _ PO)|]. cbn [is_nil].
    apply pres_wp. intro c. unfold xeng, advance_peer. apply wp_bind, wp_modify, wp_bind, wp_modify, wp_bind, wp_zoom, wp_modify, wp_ret.
    intros _ _. cbn. intros Hn. apply app_eq_nil in Hn. destruct Hn; discriminate.
  - (* SendFinished *)
    repeat match goal with
    | |- pres _ (bind (xeng (keying13 _ _)) _) => idtac
    | |- pres _ (bind _ _) => apply (pres_bind _ PO); [solve [presauto PO ltac:(first [apply HE | civ])]|intros ?]
    end.
    apply pres_wp. intro c. apply wp_bind. unfold xeng. apply wp_zoom.
    wpuse keying13_events. intros [k|x|n] e Hk; cbv beta in *; try exact (fun H => H).
    apply wp_bind, wp_modify, wp_bind, wp_zoom, wp_modify, wp_ret. intros Hc Hi. cbn in *.
    apply in_app_or in Hi. destruct Hi as [Hi|Hi]; [auto|contradiction].
Qed.

Lemma cert13_s_step E st : pres (fun a b => cert13_s a -> cert13_s b) (y_step E st).
Proof.
  pose proof (preorder_inv cert13_s) as PO.
  assert (HE : forall A (m : M Eng13 A), pres (fun a b => cert13_s a -> cert13_s b) (yeng m)).
  { intros. apply yf_eng. intros v c H. exact H. }
  destruct st; unfold_y_step;
    try (presauto PO ltac:(first [apply HE | civ]); fail).
  - (* AwaitCertificate *)
    apply (pres_bind _ PO); [apply HE|]. intros [m|]; [|apply (pres_ret _ PO)].
    destruct (n_body m) as [| | |ctx es| | | | |]; try apply (pres_panic _ PO).
    destruct es as [|x es]; cbn [is_nil]; [presauto PO ltac:(first [apply HE | civ])|].
    apply pres_wp. intro c. unfold yeng, advance_peer, stop_timers13.
    apply wp_bind, wp_modify, wp_bind, wp_modify, wp_bind, wp_zoom, wp_modify, wp_bind, wp_zoom, wp_modify, wp_ret.
    intros _ _. cbn. intros Hn. apply app_eq_nil in Hn. destruct Hn; discriminate.
  - (* AwaitFinished *)
    repeat match goal with
    | |- pres _ (bind (yeng (keying13 _ _)) _) => idtac
    | |- pres _ (bind _ _) => apply (pres_bind _ PO); [solve [presauto PO ltac:(first [apply HE | civ])]|intros ?]
    | |- pres _ (match ?x with _ => _ end) => destruct x
    | |- pres _ (ret _) => apply (pres_ret _ PO)
    | |- pres _ (panic _) => apply (pres_panic _ PO)
    | |- pres _ (fail _) => apply (pres_fail _ PO)
    end.
    apply pres_wp. intro c. apply wp_bind. unfold yeng. apply wp_zoom.
    wpuse keying13_events. intros [k|x|n] e Hk; cbv beta in *; try exact (fun H => H).
    apply wp_bind, wp_modify, wp_bind, wp_zoom, wp_modify, wp_ret. intros Hc Hi. cbn in *.
    apply in_app_or in Hi. destruct Hi as [Hi|Hi]; [auto|contradiction].
Qed.

Lemma reach13_cert E cfg cert key h s : reach13 E cfg cert key h s ->
  In LE_PeerCert (end13_events s) -> end13_certs s <> [].
Proof.
  intros H.
  assert (K : match s with XC c => cert13_c c | XS c => cert13_s c end).
  { eapply (reach13_inv E cert13_c cert13_s cfg cert key); [| | | | |exact H].
    - intro c. apply xf_call; try (intros ? ? X; exact X).
      + apply preorder_inv.
      + intros ev l x He Hx Hi. cbn in *. apply Hx. rewrite He. right. exact Hi.
      + apply cert13_c_step.
    - intro c. apply yf_call; try (intros ? ? X; exact X).
      + apply preorder_inv.
      + intros ev l x He Hx Hi. cbn in *. apply Hx. rewrite He. right. exact Hi.
      + apply cert13_s_step.
    - intros e now _ [].
    - intros e now auto _ []. 
    - intros r f kx now []. }
  destruct s; exact K.
Qed.

Definition end13_now (s : End13) : N := match s with XC c => xc_now c | XS s => xs_now s end.
Definition set13_eng (e : Eng13) (s : End13) : End13 :=
  match s with XC c => XC (set_xc_eng e c) | XS s => XS (set_xs_eng e s) end.
Definition set13_events (l : list LocalEvent12) (s : End13) : End13 :=
  match s with XC c => XC (set_xc_events l c) | XS s => XS (set_xs_events l s) end.

(** [poll_output] in terms of the endpoint. *)
Lemma poll13_unfold E cap s :
  end13_call E (Poll cap) s =
  match end13_events s with
  | LE_PeerCert :: l =>
    (match end13_certs s with
     | [] => Panic 1379
     | c :: _ => if len c <=? cap then Ok (Some (OPeerCert c)) else Panic 1380
     end, set13_events l s)
  | ev :: l => (Ok (Some (event_value (end13_certs s) ev)), set13_events l s)
  | [] =>
    let '(r, e) := eng13_poll_output cap (end13_now s) (end13_eng s) in
    (match r with Ok o => Ok (Some o) | Err e => Err e | Panic n => Panic n end, set13_eng e s)
  end.
Proof.
  destruct s as [c|c]; cbn [end13_call client13_call server13_call end13_events end13_certs end13_eng end13_now
    set13_eng set13_events]; unfold some_output, client13_poll_output, server13_poll_output,
    bind, get, modify, ret, xeng, yeng, zoom.
  - destruct (xc_events c) as [|[| |m p] l]; cbn [event12_output event_value].
    + destruct (eng13_poll_output cap (xc_now c) (xc_eng c)) as [[o|x|x] e]; reflexivity.
    + destruct (xc_certs c); [reflexivity|]. destruct (_ <=? _); reflexivity.
    + reflexivity.
    + reflexivity.
  - destruct (xs_events c) as [|[| |m p] l]; cbn [event12_output event_value].
    + destruct (eng13_poll_output cap (xs_now c) (xs_eng c)) as [[o|x|x] e]; reflexivity.
    + destruct (xs_certs c); [reflexivity|]. destruct (_ <=? _); reflexivity.
    + reflexivity.
    + reflexivity.
Qed.

Lemma ev13_set_eng e s : end13_events (set13_eng e s) = end13_events s.
Proof. destruct s; reflexivity. Qed.
Lemma eng13_set_eng e s : end13_eng (set13_eng e s) = e.
Proof. destruct s; reflexivity. Qed.
Lemma now13_set_eng e s : end13_now (set13_eng e s) = end13_now s.
Proof. destruct s; reflexivity. Qed.
Lemma certs13_set_eng e s : end13_certs (set13_eng e s) = end13_certs s.
Proof. destruct s; reflexivity. Qed.
Lemma set13_eng_twice e e' s : set13_eng e (set13_eng e' s) = set13_eng e s.
Proof. destruct s; reflexivity. Qed.

Lemma pending13_set_events l s :
  pending13 (set13_events l s) = map (event_value (end13_certs s)) l ++ eng13_pending (end13_eng s).
Proof. destruct s; reflexivity. Qed.

Lemma poll13_same E cap s e : end13_events s = [] ->
  eng13_poll_output cap (end13_now s) e = eng13_poll_output cap (end13_now s) (end13_eng s) ->
  end13_call E (Poll cap) (set13_eng e s) = end13_call E (Poll cap) s.
Proof.
  intros He H. rewrite !poll13_unfold, ev13_set_eng, He, eng13_set_eng, now13_set_eng, H.
  destruct (eng13_poll_output cap (end13_now s) (end13_eng s)). rewrite set13_eng_twice. reflexivity.
Qed.

Lemma poll13_timeout_indep cap cap' now e : Forall (Forall app_plain) (g_rx e) -> eng13_pending e = [] ->
  eng13_poll_output cap now e = eng13_poll_output cap' now e.
Proof.
  intros Hq He. pose proof (eng13_poll_pops cap now e Hq) as H1. pose proof (eng13_poll_pops cap' now e Hq) as H2.
  unfold wp in *. rewrite He in H1, H2. destruct H1 as (R1 & S1), H2 as (R2 & S2).
  rewrite (surjective_pairing (eng13_poll_output cap now e)), R1, S1.
  rewrite (surjective_pairing (eng13_poll_output cap' now e)), R2, S2. reflexivity.
Qed.

Lemma poll13_pops E s cap r s' : Forall (Forall app_plain) (g_rx (end13_eng s)) ->
  (In LE_PeerCert (end13_events s) -> end13_certs s <> []) ->
  end13_call E (Poll cap) s = (r, s') ->
  match pending13 s with
  | [] => exists t, r = Ok (Some (OTimeout t)) /\ pending13 s' = [] /\
          forall cap', end13_call E (Poll cap') s' = (r, s')
  | o :: rest =>
    if out_size o <=? cap then r = Ok (Some o) /\ pending13 s' = rest
    else match o with
         | OPeerCert _ => panicked r
         | _ => r = Ok (Some (OTooSmall (out_size o))) /\ pending13 s' = o :: rest /\
                forall cap', end13_call E (Poll cap') s' = end13_call E (Poll cap') s
         end
  end.
Proof.
  intros Hq Hc HP. rewrite poll13_unfold in HP. unfold pending13 at 1.
  destruct (end13_events s) as [|ev l] eqn:He.
  - cbn [map app]. pose proof (eng13_poll_pops cap (end13_now s) (end13_eng s) Hq) as Hpop. unfold wp in Hpop.
    destruct (eng13_poll_output cap (end13_now s) (end13_eng s)) as [r0 e0] eqn:Hr. cbn [fst snd] in Hpop.
    injection HP; clear HP; intros Hs' Hr'.
    assert (Hpend : pending13 s' = eng13_pending e0).
    { subst s'. unfold pending13. rewrite ev13_set_eng, eng13_set_eng, He. reflexivity. }
    rewrite Hpend.
    destruct (eng13_pending (end13_eng s)) as [|o rest] eqn:Hp.
    + destruct Hpop as (R1 & S1). subst r0 e0. eexists. split; [symmetry; exact Hr'|].
      split; [rewrite pending_settled; exact Hp|].
      assert (Ha : app_part (end13_eng s) = []).
      { rewrite pending_parts in Hp. apply app_eq_nil in Hp. destruct Hp as [Hp _]. now apply map_eq_nil in Hp. }
      intros cap'. subst s'. rewrite poll13_same; [|exact He|apply poll_settled13, Ha]. rewrite poll13_unfold, He.
      rewrite (poll13_timeout_indep cap' cap) by assumption. rewrite Hr. subst r. reflexivity.
    + destruct (out_size o <=? cap) eqn:Hsz.
      * destruct Hpop as (R1 & P1). subst. auto.
      * destruct Hpop as (R1 & S1). subst r0.
        assert (Hsame : forall cap', eng13_poll_output cap' (end13_now s) e0 =
                                     eng13_poll_output cap' (end13_now s) (end13_eng s)).
        { intros cap'. destruct S1 as [-> | S1]; [apply poll_purged13|].
          destruct (app_part (end13_eng s)) as [|r1 l1] eqn:Ha; [subst e0; apply poll_settled13, Ha|].
          (* application data is waiting: only the queue was purged *)
          assert (K : e0 = purged13 (end13_eng s)); [|rewrite K; apply poll_purged13].
          apply (f_equal snd) in Hr. cbn [snd] in Hr. rewrite <- Hr, poll_from_eq.
          unfold poll_from, poll_app_data13, bind, get.
          assert (Hrel : g_release (end13_eng s) = true)
            by (unfold app_part in Ha; destruct (g_release (end13_eng s)); congruence).
          change (g_release (purged13 (end13_eng s))) with (g_release (end13_eng s)). rewrite Hrel.
          cbn [negb]. rewrite find_filter.
          rewrite <- app_part_purged in Ha. unfold app_part in Ha.
          change (g_release (purged13 (end13_eng s))) with (g_release (end13_eng s)) in Ha. rewrite Hrel in Ha.
          rewrite Ha. cbn [hd_error].
          rewrite pending_parts, <- app_part_purged in Hp. unfold app_part in Hp.
          change (g_release (purged13 (end13_eng s))) with (g_release (end13_eng s)) in Hp. rewrite Hrel, Ha in Hp.
          cbn [map app] in Hp. injection Hp as Ho _. subst o. cbn [out_size] in Hsz.
          replace (cap <? len (r_frag r1)) with true by lia. reflexivity. }
        assert (G : r = Ok (Some (OTooSmall (out_size o))) /\ eng13_pending e0 = o :: rest /\
          forall cap', end13_call E (Poll cap') s' = end13_call E (Poll cap') s).
        { split; [symmetry; exact Hr'|].
          split; [destruct S1 as [-> | ->]; [rewrite pending_purged|rewrite pending_settled]; exact Hp|].
          intros cap'. subst s'. apply poll13_same; [exact He|apply Hsame]. }
        destruct o; try exact G.
        (* the engine never holds a certificate *)
        exfalso. clear -Hp.
        assert (Hin : exists d, In (OPeerCert d) (eng13_pending (end13_eng s)))
          by (rewrite Hp; eexists; left; reflexivity).
        destruct Hin as [d Hin]. unfold eng13_pending in Hin. rewrite !in_app_iff in Hin.
        destruct Hin as [H|[H|H]].
        -- destruct (g_release _); [|destruct H]. apply in_map_iff in H. destruct H as (x & H & _). discriminate.
        -- apply in_map_iff in H. destruct H as (x & H & _). discriminate.
        -- destruct (_ && _); [|destruct H]. destruct H as [H|[]]. discriminate.
  - cbn [map app]. destruct ev as [| |m p]; cbn [event_value out_size].
    + destruct (end13_certs s) as [|c cs] eqn:Hcs; [exfalso; apply Hc; [left; reflexivity|reflexivity]|].
      cbn [hd]. injection HP; clear HP; intros Hs' Hr'. subst.
      destruct (len c <=? cap); [|exact I]. split; [reflexivity|]. rewrite pending13_set_events, Hcs. reflexivity.
    + injection HP; clear HP; intros Hs' Hr'. subst. replace (0 <=? cap) with true by lia.
      split; [reflexivity|]. apply pending13_set_events.
    + injection HP; clear HP; intros Hs' Hr'. subst. replace (0 <=? cap) with true by lia.
      split; [reflexivity|]. apply pending13_set_events.
Qed.

(** ** Draining *)

(** [n] polls13 with a buffer of [cap] bytes: the replies and the final state. *)
Fixpoint polls13 (E : Env) (cap : N) (n : nat) (s : End13) : list Reply * End13 :=
  match n with
  | O => ([], s)
  | S k => let '(r, s') := end13_call E (Poll cap) s in
           let '(rs, s'') := polls13 E cap k s' in (r :: rs, s'')
  end.

Definition poll13_wf (s : End13) : Prop :=
  Forall (Forall app_plain) (g_rx (end13_eng s)) /\
  (In LE_PeerCert (end13_events s) -> end13_certs s <> []).

Lemma reach13_poll_wf E cfg cert key h s : reach13 E cfg cert key h s -> poll13_wf s.
Proof. intros H. split; [eapply reach13_app_plain|eapply reach13_cert]; exact H. Qed.

Lemma poll13_keeps_wf E cap s r s' : poll13_wf s -> end13_call E (Poll cap) s = (r, s') -> poll13_wf s'.
Proof.
  intros [H1 H2] H. rewrite poll13_unfold in H. destruct (end13_events s) as [|ev l] eqn:He.
  - destruct (eng13_poll_output cap (end13_now s) (end13_eng s)) as [r0 e0] eqn:Hr.
    injection H; clear H; intros; subst s'. split.
    + rewrite eng13_set_eng.
      pose proof (unPres _ _ (xf_poll _ _ (ap13_frame E) cap (end13_now s))) as HH.
      specialize (HH (end13_eng s)). rewrite Hr in HH. exact (HH H1).
    + rewrite ev13_set_eng, He. intros [].
  - assert (Hs : s' = set13_events l s) by (destruct ev; injection H; auto). subst s'. split.
    + destruct s; exact H1.
    + intros Hi. assert (In LE_PeerCert (ev :: l)) by (right; destruct s; exact Hi).
      specialize (H2 H0). destruct s; exact H2.
Qed.

Lemma polls13_timeout E cap t s : end13_call E (Poll cap) s = (Ok (Some (OTimeout t)), s) ->
  forall n, fst (polls13 E cap n s) = repeat (Ok (Some (OTimeout t))) n.
Proof.
  intros H n. induction n as [|n IH]; [reflexivity|]. cbn [polls13]. rewrite H.
  destruct (polls13 E cap n s). cbn [fst] in *. cbn [repeat]. f_equal. exact IH.
Qed.

Lemma polls13_drain E cap : forall os s, poll13_wf s -> pending13 s = os ->
  Forall (fun o => out_size o <= cap) os ->
  exists t, forall n, (length os <= n)%nat ->
    fst (polls13 E cap n s) = map (fun o => Ok (Some o)) os ++
      repeat (Ok (Some (OTimeout t))) (n - length os).
Proof.
  induction os as [|o os IH]; intros s Hw Hp Hs.
  - destruct (end13_call E (Poll cap) s) as [r s'] eqn:Hc.
    pose proof (poll13_pops E s cap r s' (proj1 Hw) (proj2 Hw) Hc) as H. rewrite Hp in H.
    destruct H as (t & -> & _ & Hfix). exists t. intros n _. cbn [length map app].
    rewrite Nat.sub_0_r. destruct n; [reflexivity|]. cbn [polls13]. rewrite Hc.
    pose proof (polls13_timeout E cap t s' (Hfix cap) n). destruct (polls13 E cap n s'). cbn [fst] in *. cbn [repeat]. f_equal. assumption.
  - destruct (end13_call E (Poll cap) s) as [r s'] eqn:Hc.
    pose proof (poll13_pops E s cap r s' (proj1 Hw) (proj2 Hw) Hc) as H. rewrite Hp in H.
    apply Forall_cons_iff in Hs. destruct Hs as [Hs1 Hs2].
    replace (out_size o <=? cap) with true in H by lia. destruct H as [-> Hp'].
    destruct (IH s' (poll13_keeps_wf _ _ _ _ _ Hw Hc) Hp' Hs2) as [t Ht].
    exists t. intros n Hn. destruct n as [|n]; [cbn in Hn; lia|]. cbn [polls13]. rewrite Hc.
    cbn [length] in Hn. specialize (Ht n ltac:(lia)).
    destruct (polls13 E cap n s'). cbn [fst] in *. cbn [map app Nat.sub length]. f_equal. exact Ht.
Qed.

Lemma pending13_no_timeout s o : In o (pending13 s) ->
  match o with OTimeout _ | OTooSmall _ => False | _ => True end.
Proof.
  unfold pending13, eng13_pending. rewrite !in_app_iff. intros [H|[H|[H|H]]].
  - apply in_map_iff in H. destruct H as ([| |m p] & <- & _); exact I.
  - destruct (g_release _); [|destruct H]. apply in_map_iff in H. destruct H as (x & <- & _). exact I.
  - apply in_map_iff in H. destruct H as (x & <- & _). exact I.
  - destruct (_ && _); [|destruct H]. destruct H as [<-|[]]. exact I.
Qed.

Lemma pending13_packets s : packets_of (pending13 s) = g_tx (end13_eng s).
Proof.
  unfold pending13, eng13_pending, packets_of. rewrite !flat_map_app. fold packets_of.
  change (flat_map _ ?l) with (packets_of l).
  rewrite (packets_of_map (event_value (end13_certs s))) by (intros [| |]; exact I).
  replace (packets_of (if g_release (end13_eng s) then _ else [])) with (@nil bytes).
  2:{ destruct (g_release _); [|reflexivity]. symmetry. apply (packets_of_map (fun r => OAppData (r_frag r))).
      intros; exact I. }
  replace (packets_of (if _ && _ then _ else [])) with (@nil bytes) by (destruct (_ && _); reflexivity).
  cbn [app]. rewrite app_nil_r. induction (g_tx (end13_eng s)) as [|p l IH]; [reflexivity|]. cbn. f_equal. exact IH.
Qed.

