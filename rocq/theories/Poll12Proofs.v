(** Polling for output, DTLS 1.2. *)
From Verif Require Import Prelude PreludeFacts Types Codec Codec12 Record12 Monad MonadFacts Timer Env
  Config Aead Prf Window Context12 Engine12 Client12 Server12 Engine12Frame Send12Proofs History12
  History12Facts EndFrame12 Rx12Proofs.

(** ** Queue facts *)

Lemma find_filter {A} (f : A -> bool) l : find f l = hd_error (filter f l).
Proof. induction l as [|x l IH]; cbn; [reflexivity|]. destruct (f x); [reflexivity|exact IH]. Qed.

Definition app_free (inc : list Rec12) : Prop := filter unhandled_app inc = [].

Lemma purge_filter q : filter unhandled_app (concat (purge_handled q)) = filter unhandled_app (concat q).
Proof.
  unfold purge_handled. induction q as [|inc q IH]; cbn [skip_while concat]; [reflexivity|].
  destruct (forallb rec_handled inc) eqn:H; [|reflexivity].
  rewrite filter_app, IH. replace (filter unhandled_app inc) with (@nil Rec12); [reflexivity|].
  symmetry. clear IH. induction inc as [|r inc IH]; cbn in *; [reflexivity|].
  apply andb_true_iff in H. destruct H as [H1 H2]. unfold unhandled_app at 1. rewrite H1, andb_false_r.
  auto.
Qed.

Lemma purge_idem q : purge_handled (purge_handled q) = purge_handled q.
Proof.
  unfold purge_handled. induction q as [|inc q IH]; cbn [skip_while]; [reflexivity|].
  destruct (forallb rec_handled inc) eqn:H; [exact IH|]. cbn [skip_while]. rewrite H. reflexivity.
Qed.

(** A record whose handled flag is set is handled, when it carries no handshakes. *)
Lemma unhandled_set r : r_hs r = [] -> unhandled_app (set_r_handled true r) = false.
Proof. intros H. unfold unhandled_app, rec_handled. cbn. rewrite H. apply andb_false_r. Qed.

Definition app_plain (r : Rec12) : Prop := r_ctype r = CT_APP -> r_hs r = [].

Lemma mark_done p l : map_acc (mark_rec p) true l = (l, true).
Proof. induction l as [|x l IH]; cbn [map_acc mark_rec]; [reflexivity|]. rewrite IH. reflexivity. Qed.
Lemma mark_done2 p q : map_acc (map_acc (mark_rec p)) true q = (q, true).
Proof. induction q as [|x q IH]; cbn [map_acc]; [reflexivity|]. rewrite mark_done, IH. reflexivity. Qed.

Lemma mark_inc inc : Forall app_plain inc ->
  let '(inc', d) := map_acc (mark_rec unhandled_app) false inc in
  filter unhandled_app inc' = tl (filter unhandled_app inc) /\
  d = match filter unhandled_app inc with [] => false | _ => true end.
Proof.
  induction 1 as [|r inc Hr Hi IH]; cbn [map_acc mark_rec]; [auto|].
  destruct (unhandled_app r) eqn:Hu.
  - rewrite mark_done. cbn [filter]. rewrite Hu. rewrite unhandled_set; [auto|].
    unfold unhandled_app, is_app in Hu. apply Hr. lia.
  - destruct (map_acc (mark_rec unhandled_app) false inc) as [inc' d]. cbn [filter]. rewrite Hu. exact IH.
Qed.

Lemma mark_first_filter q : Forall (Forall app_plain) q ->
  filter unhandled_app (concat (mark_first unhandled_app q)) = tl (filter unhandled_app (concat q)).
Proof.
  unfold mark_first. induction 1 as [|inc q Hi Hq IH]; cbn [map_acc concat]; [reflexivity|].
  pose proof (mark_inc inc Hi) as H. destruct (map_acc (mark_rec unhandled_app) false inc) as [inc' d].
  destruct H as [H1 H2]. destruct (filter unhandled_app inc) as [|x l] eqn:Hf; subst d.
  - destruct (map_acc _ false q) as [q' d']. cbn [fst concat] in *. rewrite !filter_app, H1, Hf. exact IH.
  - rewrite mark_done2. cbn [fst concat]. rewrite !filter_app, H1, Hf. reflexivity.
Qed.

Lemma app_plain_parsed skip buf r : p_parsed12 skip buf = Some r -> app_plain r.
Proof.
  unfold p_parsed12. destruct (p_rec12 skip buf) as [[[[[[[ct v] ep] sq] n] frag] rest]|]; [|discriminate].
  intros H. injection H; clear H; intros; subst r. intros H. cbn in *. subst ct. reflexivity.
Qed.

Lemma app_plain_mark r st : app_plain r -> app_plain (fst (mark_rec_frags st r)).
Proof.
  unfold mark_rec_frags, app_plain. destruct (map_acc mark_frag st (r_hs r)) as [hs st'] eqn:H.
  cbn. intros Ha Hc. rewrite (Ha Hc) in H. cbn in H. congruence.
Qed.

Lemma app_plain_plain r : app_plain r -> app_plain (mark_plain_hs r).
Proof.
  unfold app_plain, mark_plain_hs. intros Ha. destruct (_ && _) eqn:H; [|exact Ha].
  intros Hc. destruct (r_hs r) eqn:Hh; [exact Hh|]. cbn in Hc. unfold CT_APP, CT_HS in *. lia.
Qed.

Lemma reach_app_plain E cfg auth h s :
  reach12 E cfg auth h s -> Forall (Forall app_plain) (en_rx (end_eng s)).
Proof.
  apply rx_invariant.
  - intros r H. exact H.
  - apply app_plain_mark.
  - apply app_plain_plain.
  - apply app_plain_parsed.
Qed.

(** ** Engine *)

(** What is waiting to be returned by the engine, in order. *)
Definition eng_pending (e : Eng12) : list Output :=
  (if en_release e then map (fun r => OAppData (r_frag r)) (filter unhandled_app (concat (en_rx e)))
   else []) ++
  map OPacket (en_tx e) ++
  (if en_cn_recv e && negb (en_cn_rep e) then [OCloseNotify] else []).

Definition out_size (o : Output) : N :=
  match o with OPacket p => len p | OAppData d => len d | OPeerCert c => len c | _ => 0 end.

Definition rest_pending (e : Eng12) : list Output :=
  map OPacket (en_tx e) ++ (if en_cn_recv e && negb (en_cn_rep e) then [OCloseNotify] else []).
Definition poll_rest (cap now : N) : M Eng12 Output :=
  let! p := poll_packet_tx cap in
  match p with
  | Some o => ret o
  | None =>
    let! s := get in
    if en_cn_recv s && negb (en_cn_rep s)
    then modify (set_en_cn_rep true) ;;; ret OCloseNotify
    else ret (OTimeout (poll_timeout s now))
  end.

Lemma poll_rest_pops cap now e :
  wp (poll_rest cap now) (fun r e' =>
    en_rx e' = en_rx e /\ en_release e' = en_release e /\
    match rest_pending e with
    | [] => r = Ok (OTimeout (poll_timeout e now)) /\ e' = e
    | o :: rest =>
      if out_size o <=? cap then r = Ok o /\ rest_pending e' = rest
      else r = Ok (OTooSmall (out_size o)) /\ e' = e
    end) e.
Proof.
  unfold poll_rest, poll_packet_tx, rest_pending. apply wp_bind, wp_bind, wp_get.
  destruct (en_tx e) as [|p l] eqn:Ht.
  - wps; cbn [map app].
    + repeat split. cbn. rewrite Ht, andb_false_r. replace (0 <=? cap) with true by lia. auto.
    + repeat split; auto.
  - destruct (cap <? len p) eqn:Hc; wps; cbn [map app out_size].
    + replace (len p <=? cap) with false by lia. auto.
    + replace (len p <=? cap) with true by lia. auto.
Qed.

Lemma eng_poll_pops cap now e : Forall (Forall app_plain) (en_rx e) ->
  wp (eng12_poll_output cap now) (fun r e' =>
    match eng_pending e with
    | [] => r = Ok (OTimeout (poll_timeout e now)) /\ eng_pending e' = [] /\
            e' = set_en_rx (purge_handled (en_rx e)) e
    | o :: rest =>
      if out_size o <=? cap then r = Ok o /\ eng_pending e' = rest
      else r = Ok (OTooSmall (out_size o)) /\ eng_pending e' = o :: rest /\
           e' = set_en_rx (purge_handled (en_rx e)) e
    end) e.
Proof.
  intros Hq. unfold eng12_poll_output. apply wp_bind, wp_modify.
  set (e1 := set_en_rx (purge_handled (en_rx e)) e).
  assert (Hq1 : Forall (Forall app_plain) (en_rx e1)) by (apply Forall_skip_while, Hq).
  assert (Hp : eng_pending e = eng_pending e1).
  { unfold eng_pending. cbn [en_release en_rx en_tx en_cn_recv en_cn_rep e1 set_en_rx].
    rewrite purge_filter. reflexivity. }
  rewrite Hp. change (poll_timeout e now) with (poll_timeout e1 now).
  clearbody e1. clear Hp Hq. unfold poll_app_data. apply wp_bind, wp_bind, wp_get.
  assert (Hep : forall x, eng_pending x =
    (if en_release x then map (fun r => OAppData (r_frag r)) (filter unhandled_app (concat (en_rx x)))
     else []) ++ rest_pending x) by reflexivity.
  assert (Hnone : (if en_release e1 then map (fun r => OAppData (r_frag r))
                     (filter unhandled_app (concat (en_rx e1))) else []) = [] ->
    wp (poll_rest cap now) (fun r e' =>
      match eng_pending e1 with
      | [] => r = Ok (OTimeout (poll_timeout e1 now)) /\ eng_pending e' = [] /\ e' = e1
      | o :: rest =>
        if out_size o <=? cap then r = Ok o /\ eng_pending e' = rest
        else r = Ok (OTooSmall (out_size o)) /\ eng_pending e' = o :: rest /\ e' = e1
      end) e1).
  { intros Hn. wpuse poll_rest_pops. intros r e' (Hrx & Hre & H).
    rewrite (Hep e1), Hn. cbn [app].
    assert (He' : eng_pending e' = rest_pending e') by (rewrite Hep, Hrx, Hre, Hn; reflexivity).
    rewrite He'. destruct (rest_pending e1) as [|o rest] eqn:Hr.
    - destruct H as [-> ->]. auto.
    - destruct (out_size o <=? cap); destruct H as [H1 H2]; [auto|]. subst e'. auto. }
  destruct (en_release e1) eqn:Hrel; cbn [negb]; [|apply wp_ret; exact (Hnone eq_refl)].
  rewrite find_filter. destruct (filter unhandled_app (concat (en_rx e1))) as [|r l] eqn:Hf; cbn [hd_error].
  { apply wp_ret. exact (Hnone eq_refl). }
  assert (Hin : In r (concat (en_rx e1)) /\ unhandled_app r = true).
  { apply (filter_In unhandled_app). rewrite Hf. left. reflexivity. }
  destruct Hin as [Hin Hun].
  assert (Hhs : r_hs r = []).
  { apply Forall_concat in Hq1. rewrite Forall_forall in Hq1. apply (Hq1 r Hin).
    unfold unhandled_app, is_app in Hun. lia. }
  rewrite (Hep e1), Hrel, Hf. cbn [map app out_size]. destruct (cap <? len (r_frag r)) eqn:Hc.
  - wps. replace (len (r_frag r) <=? cap) with false by lia. rewrite (Hep e1), Hrel, Hf. auto.
  - rewrite Hhs. wps. replace (len (r_frag r) <=? cap) with true by lia.
    split; [reflexivity|]. rewrite Hep. cbn [en_release en_rx set_en_rx].
    rewrite Hrel, mark_first_filter by exact Hq1. rewrite Hf. reflexivity.
Qed.

(** ** Endpoint *)

Definition event_value (certs : list bytes) (ev : LocalEvent12) : Output :=
  match ev with
  | LE_PeerCert => OPeerCert (hd [] certs)
  | LE_Connected => OConnected
  | LE_Keying m p => OKeying m p
  end.
Definition end_certs (s : End12) : list bytes :=
  match s with Cl c => cl_certs c | Sv s => sv_certs s end.

(** What is waiting to be returned by [poll_output], in order. *)
Definition pending (s : End12) : list Output :=
  map (event_value (end_certs s)) (end_events s) ++ eng_pending (end_eng s).

Definition cert_inv_c (c : Client12) : Prop := In LE_PeerCert (cl_events c) -> cl_certs c <> [].
Definition cert_inv_s (c : Server12) : Prop := In LE_PeerCert (sv_events c) -> sv_certs c <> [].

Ltac civ := first [ apply pres_modify; intros ? Hc Hi; cbn in *; auto; fail
  | apply pres_modify; intros ? Hc Hi; cbn in *; apply in_app_or in Hi;
    destruct Hi as [Hi|[Hi|[]]]; [auto|discriminate] ].

Lemma cert_inv_c_step E st : pres (fun a b => cert_inv_c a -> cert_inv_c b) (c_step E st).
Proof.
  pose proof (preorder_inv cert_inv_c) as PO.
  assert (HE : forall A (m : M Eng12 A), pres (fun a b => cert_inv_c a -> cert_inv_c b) (ceng m)).
  { intros. apply cf_eng. intros v c H. exact H. }
  assert (HX : forall es b, pres (fun a b => cert_inv_c a -> cert_inv_c b) (sh12_extensions b es)).
  { induction es as [|[t d] es IH]; intro b; cbn [sh12_extensions];
      presauto PO ltac:(first [apply IH | civ]). }
  destruct st; unfold_c_step;
    try (presauto PO ltac:(first [apply HE | apply HX | civ]); fail).
  - (* AwaitCertificate *)
    presauto PO ltac:(first [apply HE | civ | idtac]).
    apply pres_modify. intros c H Hi. cbn. intros Hn. apply app_eq_nil in Hn. destruct Hn; discriminate.
  - (* AwaitServerHelloDone *)
    apply (pres_bind _ PO); [apply HE|]. intros [m|]; [|apply (pres_ret _ PO)].
    destruct (m_body m); try apply (pres_panic _ PO).
    intro c. apply (wp_bind get _ (fun _ c' => cert_inv_c c -> cert_inv_c c')), wp_get.
    apply wp_bind, wp_of_opt. destruct (en_suite (cl_eng c)); [|exact (fun H => H)].
    destruct (suite12_is_psk _); [exact (fun H => H)|].
    destruct (is_nil (cl_certs c)) eqn:Hn; [exact (fun H => H)|].
    wps. intros _ _. cbn. intros Hc. rewrite Hc in Hn. discriminate.
Qed.

Lemma cert_inv_s_step E st : pres (fun a b => cert_inv_s a -> cert_inv_s b) (s_step E st).
Proof.
  pose proof (preorder_inv cert_inv_s) as PO.
  assert (HE : forall A (m : M Eng12 A), pres (fun a b => cert_inv_s a -> cert_inv_s b) (seng m)).
  { intros. apply sf_eng. intros v c H. exact H. }
  destruct st; unfold_s_step;
    try (presauto PO ltac:(first [apply HE | civ]); fail).
  - (* AwaitCertificate *)
    apply (pres_bind _ PO); [apply HE|]. intros [m|]; [|apply (pres_ret _ PO)].
    destruct (m_body m); try apply (pres_panic _ PO).
    match goal with |- context [match ?l with [] => _ | _ => _ end] => destruct l end;
      try apply (pres_ret _ PO).
    intro x. wps. intros _ _. cbn. intros Hn. apply app_eq_nil in Hn. destruct Hn; discriminate.
Qed.

Lemma reach_cert_inv E cfg auth h s : reach12 E cfg auth h s ->
  In LE_PeerCert (end_events s) -> end_certs s <> [].
Proof.
  intros H. pose proof (reach_inv E cert_inv_c cert_inv_s) as HI.
  assert (match s with Cl c => cert_inv_c c | Sv c => cert_inv_s c end).
  { eapply HI; [| | | |exact H].
    - intro c. apply cf_call; try (intros ? ? X; exact X).
      + apply preorder_inv.
      + intros ev l x He Hx Hi. cbn in *. apply Hx. rewrite He. right. exact Hi.
      + apply cert_inv_c_step.
    - intro c. apply sf_call; try (intros ? ? X; exact X).
      + apply preorder_inv.
      + intros ev l x He Hx Hi. cbn in *. apply Hx. rewrite He. right. exact Hi.
      + apply cert_inv_s_step.
    - intros e now [].
    - intros e now []. }
  destruct s; exact H0.
Qed.

Lemma poll_purged cap now e :
  eng12_poll_output cap now (set_en_rx (purge_handled (en_rx e)) e) = eng12_poll_output cap now e.
Proof.
  unfold eng12_poll_output, bind, modify. cbn [en_rx set_en_rx]. rewrite purge_idem. reflexivity.
Qed.

Definition end_now (s : End12) : N := match s with Cl c => cl_now c | Sv s => sv_now s end.
Definition set_end_eng (e : Eng12) (s : End12) : End12 :=
  match s with Cl c => Cl (set_cl_eng e c) | Sv s => Sv (set_sv_eng e s) end.
Definition set_end_events (l : list LocalEvent12) (s : End12) : End12 :=
  match s with Cl c => Cl (set_cl_events l c) | Sv s => Sv (set_sv_events l s) end.

(** [poll_output] in terms of the endpoint. *)
Lemma poll_unfold E cap s :
  end12_call E (Poll cap) s =
  match end_events s with
  | LE_PeerCert :: l =>
    (match end_certs s with
     | [] => Panic 1379
     | c :: _ => if len c <=? cap then Ok (Some (OPeerCert c)) else Panic 1380
     end, set_end_events l s)
  | ev :: l => (Ok (Some (event_value (end_certs s) ev)), set_end_events l s)
  | [] =>
    let '(r, e) := eng12_poll_output cap (end_now s) (end_eng s) in
    (match r with Ok o => Ok (Some o) | Err e => Err e | Panic n => Panic n end, set_end_eng e s)
  end.
Proof.
  destruct s as [c|c]; cbn [end12_call client12_call server12_call end_events end_certs end_eng end_now
    set_end_eng set_end_events]; unfold some_output, client12_poll_output, server12_poll_output,
    bind, get, modify, ret, ceng, seng, zoom.
  - destruct (cl_events c) as [|[| |m p] l]; cbn [event12_output event_value].
    + destruct (eng12_poll_output cap (cl_now c) (cl_eng c)) as [[o|x|x] e]; reflexivity.
    + destruct (cl_certs c); [reflexivity|]. destruct (_ <=? _); reflexivity.
    + reflexivity.
    + reflexivity.
  - destruct (sv_events c) as [|[| |m p] l]; cbn [event12_output event_value].
    + destruct (eng12_poll_output cap (sv_now c) (sv_eng c)) as [[o|x|x] e]; reflexivity.
    + destruct (sv_certs c); [reflexivity|]. destruct (_ <=? _); reflexivity.
    + reflexivity.
    + reflexivity.
Qed.

Lemma end_events_set_eng e s : end_events (set_end_eng e s) = end_events s.
Proof. destruct s; reflexivity. Qed.
Lemma end_eng_set_eng e s : end_eng (set_end_eng e s) = e.
Proof. destruct s; reflexivity. Qed.
Lemma end_now_set_eng e s : end_now (set_end_eng e s) = end_now s.
Proof. destruct s; reflexivity. Qed.
Lemma end_certs_set_eng e s : end_certs (set_end_eng e s) = end_certs s.
Proof. destruct s; reflexivity. Qed.
Lemma set_eng_twice e e' s : set_end_eng e (set_end_eng e' s) = set_end_eng e s.
Proof. destruct s; reflexivity. Qed.

Lemma pending_set_events l s :
  pending (set_end_events l s) = map (event_value (end_certs s)) l ++ eng_pending (end_eng s).
Proof. destruct s; reflexivity. Qed.

Lemma poll_same E cap s :
  end_events s = [] ->
  end12_call E (Poll cap) (set_end_eng (set_en_rx (purge_handled (en_rx (end_eng s))) (end_eng s)) s) =
  end12_call E (Poll cap) s.
Proof.
  intros He. rewrite !poll_unfold, end_events_set_eng, He, end_eng_set_eng, end_now_set_eng, poll_purged.
  destruct (eng12_poll_output cap (end_now s) (end_eng s)). rewrite set_eng_twice. reflexivity.
Qed.

Lemma poll_timeout_indep cap cap' now e : Forall (Forall app_plain) (en_rx e) -> eng_pending e = [] ->
  eng12_poll_output cap now e = eng12_poll_output cap' now e.
Proof.
  intros Hq He. pose proof (eng_poll_pops cap now e Hq) as H1. pose proof (eng_poll_pops cap' now e Hq) as H2.
  unfold wp in *. rewrite He in H1, H2. destruct H1 as (R1 & _ & S1), H2 as (R2 & _ & S2).
  rewrite (surjective_pairing (eng12_poll_output cap now e)), R1, S1.
  rewrite (surjective_pairing (eng12_poll_output cap' now e)), R2, S2. reflexivity.
Qed.

Lemma poll_pops E s cap r s' : Forall (Forall app_plain) (en_rx (end_eng s)) ->
  (In LE_PeerCert (end_events s) -> end_certs s <> []) ->
  end12_call E (Poll cap) s = (r, s') ->
  match pending s with
  | [] => exists t, r = Ok (Some (OTimeout t)) /\ pending s' = [] /\
          forall cap', end12_call E (Poll cap') s' = (r, s')
  | o :: rest =>
    if out_size o <=? cap then r = Ok (Some o) /\ pending s' = rest
    else match o with
         | OPeerCert _ => panicked r
         | _ => r = Ok (Some (OTooSmall (out_size o))) /\ pending s' = o :: rest /\
                forall cap', end12_call E (Poll cap') s' = end12_call E (Poll cap') s
         end
  end.
Proof.
  intros Hq Hc HP. rewrite poll_unfold in HP. unfold pending at 1.
  destruct (end_events s) as [|ev l] eqn:He.
  - cbn [map app]. pose proof (eng_poll_pops cap (end_now s) (end_eng s) Hq) as Hpop. unfold wp in Hpop.
    destruct (eng12_poll_output cap (end_now s) (end_eng s)) as [r0 e0] eqn:Hr. cbn [fst snd] in Hpop.
    injection HP; clear HP; intros Hs' Hr'.
    assert (Hpend : pending s' = eng_pending e0).
    { subst s'. unfold pending. rewrite end_events_set_eng, end_eng_set_eng, He. reflexivity. }
    rewrite Hpend.
    destruct (eng_pending (end_eng s)) as [|o rest] eqn:Hp.
    + destruct Hpop as (R1 & P1 & S1). subst r0 e0. eexists. split; [symmetry; exact Hr'|]. split; [exact P1|].
      intros cap'. subst s'. rewrite poll_same by exact He. rewrite poll_unfold, He.
      rewrite (poll_timeout_indep cap' cap) by assumption. rewrite Hr. subst r. reflexivity.
    + destruct (out_size o <=? cap).
      * destruct Hpop as (R1 & P1). subst. auto.
      * destruct Hpop as (R1 & P1 & S1). subst r0.
        assert (G : r = Ok (Some (OTooSmall (out_size o))) /\ eng_pending e0 = o :: rest /\
          forall cap', end12_call E (Poll cap') s' = end12_call E (Poll cap') s).
        { split; [symmetry; exact Hr'|]. split; [exact P1|]. intros cap'. subst s' e0.
          apply poll_same. exact He. }
        destruct o; try exact G.
        (* the engine never holds a certificate *)
        exfalso. clear -Hp.
        assert (Hin : exists d, In (OPeerCert d) (eng_pending (end_eng s)))
          by (rewrite Hp; eexists; left; reflexivity).
        destruct Hin as [d Hin]. unfold eng_pending in Hin. rewrite !in_app_iff in Hin.
        destruct Hin as [H|[H|H]].
        -- destruct (en_release _); [|destruct H]. apply in_map_iff in H. destruct H as (x & H & _). discriminate.
        -- apply in_map_iff in H. destruct H as (x & H & _). discriminate.
        -- destruct (_ && _); [|destruct H]. destruct H as [H|[]]. discriminate.
  - cbn [map app]. destruct ev as [| |m p]; cbn [event_value out_size].
    + destruct (end_certs s) as [|c cs] eqn:Hcs; [exfalso; apply Hc; [left; reflexivity|reflexivity]|].
      cbn [hd]. injection HP; clear HP; intros Hs' Hr'. subst.
      destruct (len c <=? cap); [|exact I]. split; [reflexivity|]. rewrite pending_set_events, Hcs. reflexivity.
    + injection HP; clear HP; intros Hs' Hr'. subst. replace (0 <=? cap) with true by lia.
      split; [reflexivity|]. apply pending_set_events.
    + injection HP; clear HP; intros Hs' Hr'. subst. replace (0 <=? cap) with true by lia.
      split; [reflexivity|]. apply pending_set_events.
Qed.

(** ** Draining *)

(** [n] polls with a buffer of [cap] bytes: the replies and the final state. *)
Fixpoint polls (E : Env) (cap : N) (n : nat) (s : End12) : list Reply * End12 :=
  match n with
  | O => ([], s)
  | S k => let '(r, s') := end12_call E (Poll cap) s in
           let '(rs, s'') := polls E cap k s' in (r :: rs, s'')
  end.

Definition poll_wf (s : End12) : Prop :=
  Forall (Forall app_plain) (en_rx (end_eng s)) /\
  (In LE_PeerCert (end_events s) -> end_certs s <> []).

Lemma reach_poll_wf E cfg auth h s : reach12 E cfg auth h s -> poll_wf s.
Proof. intros H. split; [eapply reach_app_plain|eapply reach_cert_inv]; exact H. Qed.

Lemma poll_keeps_wf E cap s r s' : poll_wf s -> end12_call E (Poll cap) s = (r, s') -> poll_wf s'.
Proof.
  intros [H1 H2] H. rewrite poll_unfold in H. destruct (end_events s) as [|ev l] eqn:He.
  - destruct (eng12_poll_output cap (end_now s) (end_eng s)) as [r0 e0] eqn:Hr.
    injection H; clear H; intros; subst s'. split.
    + rewrite end_eng_set_eng.
      pose proof (ef_poll _ _ (rx_frame E app_plain (fun r H => H) app_plain_mark app_plain_plain
        app_plain_parsed) cap (end_now s)) as HH.
      specialize (HH (end_eng s)). rewrite Hr in HH. exact (HH H1).
    + rewrite end_events_set_eng, He. intros [].
  - assert (Hs : s' = set_end_events l s) by (destruct ev; injection H; auto). subst s'. split.
    + destruct s; exact H1.
    + intros Hi. assert (In LE_PeerCert (ev :: l)) by (right; destruct s; exact Hi).
      specialize (H2 H0). destruct s; exact H2.
Qed.

Lemma polls_timeout E cap t s : end12_call E (Poll cap) s = (Ok (Some (OTimeout t)), s) ->
  forall n, fst (polls E cap n s) = repeat (Ok (Some (OTimeout t))) n.
Proof.
  intros H n. induction n as [|n IH]; [reflexivity|]. cbn [polls]. rewrite H.
  destruct (polls E cap n s). cbn [fst] in *. cbn [repeat]. f_equal. exact IH.
Qed.

Lemma polls_drain E cap : forall os s, poll_wf s -> pending s = os ->
  Forall (fun o => out_size o <= cap) os ->
  exists t, forall n, (length os <= n)%nat ->
    fst (polls E cap n s) = map (fun o => Ok (Some o)) os ++
      repeat (Ok (Some (OTimeout t))) (n - length os).
Proof.
  induction os as [|o os IH]; intros s Hw Hp Hs.
  - destruct (end12_call E (Poll cap) s) as [r s'] eqn:Hc.
    pose proof (poll_pops E s cap r s' (proj1 Hw) (proj2 Hw) Hc) as H. rewrite Hp in H.
    destruct H as (t & -> & _ & Hfix). exists t. intros n _. cbn [length map app].
    rewrite Nat.sub_0_r. destruct n; [reflexivity|]. cbn [polls]. rewrite Hc.
    pose proof (polls_timeout E cap t s' (Hfix cap) n). destruct (polls E cap n s'). cbn [fst] in *. cbn [repeat]. f_equal. assumption.
  - destruct (end12_call E (Poll cap) s) as [r s'] eqn:Hc.
    pose proof (poll_pops E s cap r s' (proj1 Hw) (proj2 Hw) Hc) as H. rewrite Hp in H.
    apply Forall_cons_iff in Hs. destruct Hs as [Hs1 Hs2].
    replace (out_size o <=? cap) with true in H by lia. destruct H as [-> Hp'].
    destruct (IH s' (poll_keeps_wf _ _ _ _ _ Hw Hc) Hp' Hs2) as [t Ht].
    exists t. intros n Hn. destruct n as [|n]; [cbn in Hn; lia|]. cbn [polls]. rewrite Hc.
    cbn [length] in Hn. specialize (Ht n ltac:(lia)).
    destruct (polls E cap n s'). cbn [fst] in *. cbn [map app Nat.sub length]. f_equal. exact Ht.
Qed.

Lemma pending_no_timeout s o : In o (pending s) ->
  match o with OTimeout _ | OTooSmall _ => False | _ => True end.
Proof.
  unfold pending, eng_pending. rewrite !in_app_iff. intros [H|[H|[H|H]]].
  - apply in_map_iff in H. destruct H as ([| |m p] & <- & _); exact I.
  - destruct (en_release _); [|destruct H]. apply in_map_iff in H. destruct H as (x & <- & _). exact I.
  - apply in_map_iff in H. destruct H as (x & <- & _). exact I.
  - destruct (_ && _); [|destruct H]. destruct H as [<-|[]]. exact I.
Qed.

Definition packets_of (os : list Output) : list bytes :=
  flat_map (fun o => match o with OPacket p => [p] | _ => [] end) os.

Lemma packets_of_map {A} (f : A -> Output) l : (forall a, match f a with OPacket _ => False | _ => True end) ->
  packets_of (map f l) = [].
Proof.
  intros H. induction l as [|a l IH]; [reflexivity|]. cbn. specialize (H a). destruct (f a); try exact IH. destruct H.
Qed.

Lemma pending_packets s : packets_of (pending s) = en_tx (end_eng s).
Proof.
  unfold pending, eng_pending, packets_of. rewrite !flat_map_app. fold packets_of.
  change (flat_map _ ?l) with (packets_of l).
  rewrite (packets_of_map (event_value (end_certs s))) by (intros [| |]; exact I).
  replace (packets_of (if en_release (end_eng s) then _ else [])) with (@nil bytes).
  2:{ destruct (en_release _); [|reflexivity]. symmetry. apply (packets_of_map (fun r => OAppData (r_frag r))).
      intros; exact I. }
  replace (packets_of (if _ && _ then _ else [])) with (@nil bytes) by (destruct (_ && _); reflexivity).
  cbn [app]. rewrite app_nil_r. induction (en_tx (end_eng s)) as [|p l IH]; [reflexivity|]. cbn. f_equal. exact IH.
Qed.

Lemma sizes_bound (os : list Output) : exists big, forall cap, big <= cap ->
  Forall (fun o => out_size o <= cap) os.
Proof.
  induction os as [|o os [b Hb]]; [exists 0; constructor|].
  exists (N.max b (out_size o)). intros cap Hc. constructor; [lia|]. apply Hb. lia.
Qed.
