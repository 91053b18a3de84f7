(** Proofs about the receive keys of a connected DTLS 1.3 endpoint and about the
    steps it takes in one call. *)
From Coq Require Import String.
From Verif Require Import Prelude PreludeFacts Types Codec Codec12 Codec13 Record12 Record13 Monad MonadFacts Timer Env Config Aead Prf Engine12 Client12
  Engine13 Client13 Server13 History12 History12Facts History13 Frame13 Lift13 Index13 Send13Proofs Trace13 Trace13Proofs Out13 Open13 Fin13 KeyUpd13.
Close Scope string_scope.

(** ** One call is at most one step *)

(** What happens in a call besides the step of the state machine. *)
Record io_frame13 (E : Env) (R : Eng13 -> Eng13 -> Prop) : Prop := {
  if_po : preorder R;
  if_orc : forall v s, R s (set_g_orc v s);
  if_cipher : forall ct ep f, Pres R (create_cipher13 E ct ep false f);
  if_cancel : Pres R cancel_flights;
  if_parse : forall p, Pres R (eng13_parse_packet E p);
  if_poll : forall cap now, Pres R (eng13_poll_output cap now);
  if_timeout : forall now, Pres R (eng13_handle_timeout E now) }.

Definition step13 (E : Env) (s : End13) : res unit * End13 :=
  match s with
  | XC c => match x_step E (xc_state c) c with
            | (Ok st, c') => (Ok tt, XC (set_xc_state st c')) | (Err e, c') => (Err e, XC c') | (Panic n, c') => (Panic n, XC c') end
  | XS c => match y_step E (xs_state c) c with
            | (Ok st, c') => (Ok tt, XS (set_xs_state st c')) | (Err e, c') => (Err e, XS c') | (Panic n, c') => (Panic n, XS c') end
  end.
Definition pend13 (s : End13) : bool := match s with XC c => xc_pend c | XS c => xs_pend c end.
(** The reply to a call, for the result of its step. *)
Definition reply_of (rs : res unit) (r : Reply) : Prop :=
  match rs with Ok _ => r = Ok None | Err ETransient => r = Ok None | Err e => r = Err e | Panic n => r = Panic n end.

Lemma x_eq st st' : cstate13_eqb st st' = true -> st = st'.
Proof. destruct st, st'; try discriminate; reflexivity. Qed.
Lemma y_eq st st' : sstate13_eqb st st' = true -> st = st'.
Proof. destruct st, st'; try discriminate; reflexivity. Qed.

Lemma fin_x_next E st : fin_x st = true -> rets (fun st' => st' = st \/ st' = CT_Closed) (x_step E st).
Proof.
  destruct st; try discriminate; intros _; cbn [x_step]; unfold x_await_application_data, x_half_closed_local;
    rets ltac:(first [solve [auto] | match goal with |- (if ?b then _ else _) = _ \/ _ => destruct b; auto end]).
Qed.
Lemma fin_y_next E st : fin_y st = true -> rets (fun st' => st' = st \/ st' = ST_Closed) (y_step E st).
Proof.
  destruct st; try discriminate; intros _; cbn [y_step]; unfold y_await_application_data, y_half_closed_local;
    rets ltac:(first [solve [auto] | match goal with |- (if ?b then _ else _) = _ \/ _ => destruct b; auto end]).
Qed.
Lemma x_progress_one E n c : fin_x (xc_state c) = true ->
  x_progress E (S (S n)) c = match x_step E (xc_state c) c with
    | (Ok st, c') => (Ok tt, set_xc_state st c') | (Err e, c') => (Err e, c') | (Panic m, c') => (Panic m, c') end.
Proof.
  intros Hf. cbn [x_progress]. unfold bind, get. pose proof (fin_x_next E _ Hf c) as N. pose proof (x_step_state E (xc_state c) c) as St.
  destruct (x_step E (xc_state c) c) as [[st|e|m] c1]; cbn [fst snd] in *; try reflexivity.
  destruct (cstate13_eqb (xc_state c) st) eqn:He.
  - apply x_eq in He. subst st. unfold ret. rewrite St. destruct c1; reflexivity.
  - destruct N as [-> | ->]; [destruct (xc_state c); discriminate He|]. unfold modify. cbn. reflexivity.
Qed.
Lemma y_progress_one E n c : fin_y (xs_state c) = true ->
  y_progress E (S (S n)) c = match y_step E (xs_state c) c with
    | (Ok st, c') => (Ok tt, set_xs_state st c') | (Err e, c') => (Err e, c') | (Panic m, c') => (Panic m, c') end.
Proof.
  intros Hf. cbn [y_progress]. unfold bind, get. pose proof (fin_y_next E _ Hf c) as N. pose proof (y_step_state E (xs_state c) c) as St.
  destruct (y_step E (xs_state c) c) as [[st|e|m] c1]; cbn [fst snd] in *; try reflexivity.
  destruct (sstate13_eqb (xs_state c) st) eqn:He.
  - apply y_eq in He. subst st. unfold ret. rewrite St. destruct c1; reflexivity.
  - destruct N as [-> | ->]; [destruct (xs_state c); discriminate He|]. unfold modify. cbn. reflexivity.
Qed.

Section FinSplit.
Variable E : Env.
Variable R : Eng13 -> Eng13 -> Prop.
Hypothesis F : io_frame13 E R.
Let PO : preorder R := if_po _ _ F.

(** A call on a connected endpoint receives, sends or polls, and then takes at most
    one step. *)
Definition one_step (k : Call) (s : End13) (r : Reply) (s' : End13) : Prop :=
  R (end13_eng s) (end13_eng s') \/
  exists s1 rs s2, fin13 s1 = true /\ pend13 s1 = pend13 s /\ (k <> Close /\ (forall d, k <> Send d) /\ (forall cap, k <> Poll cap)) /\
    R (end13_eng s) (end13_eng s1) /\ step13 E s1 = (rs, s2) /\ end13_eng s' = end13_eng s2 /\ reply_of rs r.

Ltac no3 := split; [discriminate|split; intros ?; discriminate].
Lemma fin_split k s r s' : fin13 s = true -> end13_call E k s = (r, s') -> one_step k s r s'.
Proof.
  intros Hf Hc. destruct s as [c|c]; cbn [end13_call fin13] in *.
  - destruct (client13_call E k c) as [r1 c1] eqn:Hk. injection Hc as <- <-. unfold one_step. cbn [end13_eng].
    destruct k as [p|cap|now|d|]; cbn [client13_call] in Hk.
    + unfold no_output, client13_handle_packet, public, bind in Hk.
      destruct (xeng_eng (eng13_parse_packet E p) c) as [X1 X2]. pose proof (unPres _ _ (if_parse _ _ F p) (xc_eng c)) as P.
      assert (X3 : xc_pend (snd (xeng (eng13_parse_packet E p) c)) = xc_pend c) by
        (unfold xeng, zoom; destruct (eng13_parse_packet E p (xc_eng c)); reflexivity).
      rewrite <- X1 in P. destruct (xeng (eng13_parse_packet E p) c) as [[[]|e|m] c2]; cbn [snd] in *.
      2:{ left. destruct e; injection Hk as <- <-; exact P. }
      2:{ left. injection Hk as <- <-; exact P. }
      right. exists (XC c2). unfold x_make_progress in Hk. rewrite (x_progress_one E 38 c2) in Hk by (rewrite X2; exact Hf). cbn [step13].
      destruct (x_step E (xc_state c2) c2) as [[st|e|m] c3] eqn:Hs.
      * injection Hk as <- <-. eexists _, _. split; [cbn; rewrite X2; exact Hf|]. split; [exact X3|]. split; [no3|]. 
        split; [exact P|]. split; [reflexivity|]. split; [reflexivity|reflexivity].
      * exists (Err e), (XC c3). split; [cbn; rewrite X2; exact Hf|]. split; [exact X3|]. split; [no3|]. split; [exact P|]. split; [reflexivity|].
        destruct e; injection Hk as <- <-; split; reflexivity.
      * exists (Panic m), (XC c3). split; [cbn; rewrite X2; exact Hf|]. split; [exact X3|]. split; [no3|]. split; [exact P|]. split; [reflexivity|].
        injection Hk as <- <-; split; reflexivity.
    + left. assert (K : c1 = snd (client13_poll_output cap c)) by (rewrite <- snd_some_output, Hk; reflexivity).
      rewrite K. unfold client13_poll_output, bind, get. destruct (xc_events c) as [|ev l].
      * destruct (xeng_eng (eng13_poll_output cap (xc_now c)) c) as [X1 X2]. rewrite X1. apply (unPres _ _ (if_poll _ _ F cap (xc_now c))).
      * unfold modify. rewrite snd_event. apply PO.
    + unfold no_output in Hk. unfold bind at 1 in Hk. rewrite tick_draw in Hk. unfold bind at 1 in Hk.
      set (c0 := draw_random13 E (set_xc_now now c)) in *.
      assert (C1 : xc_state c0 = xc_state c /\ xc_pend c0 = xc_pend c /\ R (xc_eng c) (xc_eng c0)).
      { unfold c0, draw_random13. cbn. destruct (xc_random c); (split; [reflexivity|]); (split; [reflexivity|]); cbn; [apply PO|]. apply (if_orc _ _ F). }
      destruct C1 as (C1 & C2 & C3). destruct (xeng_eng (eng13_handle_timeout E now) c0) as [X1 X2].
      pose proof (unPres _ _ (if_timeout _ _ F now) (xc_eng c0)) as P. rewrite <- X1 in P.
      assert (X3 : xc_pend (snd (xeng (eng13_handle_timeout E now) c0)) = xc_pend c0) by
        (unfold xeng, zoom; destruct (eng13_handle_timeout E now (xc_eng c0)); reflexivity).
      destruct (xeng (eng13_handle_timeout E now) c0) as [[[]|e|m] c2]; cbn [snd] in *.
      2,3: left; injection Hk as <- <-; eapply PO; eassumption.
      right. exists (XC c2). unfold public, x_make_progress in Hk. rewrite (x_progress_one E 38 c2) in Hk by (rewrite X2, C1; exact Hf). cbn [step13].
      assert (G1 : fin13 (XC c2) = true) by (cbn; rewrite X2, C1; exact Hf).
      assert (G2 : pend13 (XC c2) = xc_pend c) by (cbn; congruence).
      assert (G3 : R (xc_eng c) (xc_eng c2)) by (eapply PO; eassumption).
      destruct (x_step E (xc_state c2) c2) as [[st|e|m] c3] eqn:Hs.
      * injection Hk as <- <-. eexists _, _. split; [exact G1|]. split; [exact G2|]. split; [no3|]. 
        split; [exact G3|]. split; [reflexivity|]. split; [reflexivity|reflexivity].
      * exists (Err e), (XC c3). split; [exact G1|]. split; [exact G2|]. split; [no3|]. split; [exact G3|]. split; [reflexivity|].
        destruct e; injection Hk as <- <-; split; reflexivity.
      * exists (Panic m), (XC c3). split; [exact G1|]. split; [exact G2|]. split; [no3|]. split; [exact G3|]. split; [reflexivity|].
        injection Hk as <- <-; split; reflexivity.
    + left. assert (K : c1 = snd (client13_send E d c)) by (rewrite <- snd_no_output, Hk; reflexivity).
      rewrite K. unfold client13_send, bind, get. destruct (xc_state c) eqn:Hst; try discriminate Hf; try apply PO.
      destruct (xeng_eng (create_cipher13 E CT_APP (g_epoch (xc_eng c)) false d) c) as [X1 X2]. rewrite X1. apply (unPres _ _ (if_cipher _ _ F _ _ _)).
    + left. assert (K : c1 = snd (client13_close E c)) by (rewrite <- snd_no_output, Hk; reflexivity).
      rewrite K. unfold client13_close. unfold bind at 1, get. destruct (xc_state c) eqn:Hst; try discriminate Hf; try apply PO.
      unfold bind. destruct (xeng_eng (create_cipher13 E CT_ALERT (g_epoch (xc_eng c)) false [1; 0]) c) as [X1 X2].
      pose proof (unPres _ _ (if_cipher _ _ F CT_ALERT (g_epoch (xc_eng c)) [1; 0]) (xc_eng c)) as TO. rewrite <- X1 in TO.
      destruct (xeng (create_cipher13 E CT_ALERT (g_epoch (xc_eng c)) false [1; 0]) c) as [[[]|e|m] c2]; cbn [snd] in *; [|exact TO..].
      destruct (xeng_eng cancel_flights c2) as [Y1 Y2]. pose proof (unPres _ _ (if_cancel _ _ F) (xc_eng c2)) as TC. rewrite <- Y1 in TC.
      destruct (xeng cancel_flights c2) as [[[]|e|m] c3]; cbn [snd modify] in *; (eapply PO; [exact TO|exact TC]).
  - destruct (server13_call E k c) as [r1 c1] eqn:Hk. injection Hc as <- <-. unfold one_step. cbn [end13_eng].
    destruct k as [p|cap|now|d|]; cbn [server13_call] in Hk.
    + unfold no_output, server13_handle_packet in Hk. unfold bind at 1 in Hk. unfold bind, get in Hk.
      assert (NA : sstate13_eqb (xs_state c) ST_AwaitClientHello = false) by (destruct (xs_state c); [discriminate Hf|reflexivity..]).
      rewrite NA, andb_false_r in Hk. unfold public, y_process, bind in Hk.
      destruct (yeng_eng (eng13_parse_packet E p) c) as [X1 X2]. pose proof (unPres _ _ (if_parse _ _ F p) (xs_eng c)) as P.
      assert (X3 : xs_pend (snd (yeng (eng13_parse_packet E p) c)) = xs_pend c) by
        (unfold yeng, zoom; destruct (eng13_parse_packet E p (xs_eng c)); reflexivity).
      rewrite <- X1 in P. destruct (yeng (eng13_parse_packet E p) c) as [[[]|e|m] c2]; cbn [snd] in *.
      2:{ left. destruct e; injection Hk as <- <-; exact P. }
      2:{ left. injection Hk as <- <-; exact P. }
      right. exists (XS c2). unfold y_make_progress in Hk. rewrite (y_progress_one E 38 c2) in Hk by (rewrite X2; exact Hf). cbn [step13].
      destruct (y_step E (xs_state c2) c2) as [[st|e|m] c3] eqn:Hs.
      * unfold get, when, modify, ret in Hk. eexists _, _. split; [cbn; rewrite X2; exact Hf|]. split; [exact X3|]. split; [no3|]. 
        split; [exact P|]. split; [reflexivity|]. destruct (_ && _); injection Hk as <- <-; (split; [reflexivity|reflexivity]).
      * exists (Err e), (XS c3). split; [cbn; rewrite X2; exact Hf|]. split; [exact X3|]. split; [no3|]. split; [exact P|]. split; [reflexivity|].
        destruct e; injection Hk as <- <-; split; reflexivity.
      * exists (Panic m), (XS c3). split; [cbn; rewrite X2; exact Hf|]. split; [exact X3|]. split; [no3|]. split; [exact P|]. split; [reflexivity|].
        injection Hk as <- <-; split; reflexivity.
    + left. assert (K : c1 = snd (server13_poll_output cap c)) by (rewrite <- snd_some_output, Hk; reflexivity).
      rewrite K. unfold server13_poll_output, bind, get. destruct (xs_events c) as [|ev l].
      * destruct (yeng_eng (eng13_poll_output cap (xs_now c)) c) as [X1 X2]. rewrite X1. apply (unPres _ _ (if_poll _ _ F cap (xs_now c))).
      * unfold modify. rewrite snd_event. apply PO.
    + unfold no_output in Hk. unfold bind at 1 in Hk. rewrite tick_draws in Hk. unfold bind at 1 in Hk.
      set (c0 := draw_random13s E (set_xs_now now c)) in *.
      assert (C1 : xs_state c0 = xs_state c /\ xs_pend c0 = xs_pend c /\ R (xs_eng c) (xs_eng c0)).
      { unfold c0, draw_random13s. cbn. destruct (xs_random c); (split; [reflexivity|]); (split; [reflexivity|]); cbn; [apply PO|]. apply (if_orc _ _ F). }
      destruct C1 as (C1 & C2 & C3). destruct (yeng_eng (eng13_handle_timeout E now) c0) as [X1 X2].
      pose proof (unPres _ _ (if_timeout _ _ F now) (xs_eng c0)) as P. rewrite <- X1 in P.
      assert (X3 : xs_pend (snd (yeng (eng13_handle_timeout E now) c0)) = xs_pend c0) by
        (unfold yeng, zoom; destruct (eng13_handle_timeout E now (xs_eng c0)); reflexivity).
      destruct (yeng (eng13_handle_timeout E now) c0) as [[[]|e|m] c2]; cbn [snd] in *.
      2,3: left; injection Hk as <- <-; eapply PO; eassumption.
      right. exists (XS c2). unfold public, y_make_progress in Hk. rewrite (y_progress_one E 38 c2) in Hk by (rewrite X2, C1; exact Hf). cbn [step13].
      assert (G1 : fin13 (XS c2) = true) by (cbn; rewrite X2, C1; exact Hf).
      assert (G2 : pend13 (XS c2) = xs_pend c) by (cbn; congruence).
      assert (G3 : R (xs_eng c) (xs_eng c2)) by (eapply PO; eassumption).
      destruct (y_step E (xs_state c2) c2) as [[st|e|m] c3] eqn:Hs.
      * injection Hk as <- <-. eexists _, _. split; [exact G1|]. split; [exact G2|]. split; [no3|]. 
        split; [exact G3|]. split; [reflexivity|]. split; [reflexivity|reflexivity].
      * exists (Err e), (XS c3). split; [exact G1|]. split; [exact G2|]. split; [no3|]. split; [exact G3|]. split; [reflexivity|].
        destruct e; injection Hk as <- <-; split; reflexivity.
      * exists (Panic m), (XS c3). split; [exact G1|]. split; [exact G2|]. split; [no3|]. split; [exact G3|]. split; [reflexivity|].
        injection Hk as <- <-; split; reflexivity.
    + left. assert (K : c1 = snd (server13_send E d c)) by (rewrite <- snd_no_output, Hk; reflexivity).
      rewrite K. unfold server13_send, bind, get. destruct (xs_state c) eqn:Hst; try discriminate Hf; try apply PO.
      destruct (yeng_eng (create_cipher13 E CT_APP (g_epoch (xs_eng c)) false d) c) as [X1 X2]. rewrite X1. apply (unPres _ _ (if_cipher _ _ F _ _ _)).
    + left. assert (K : c1 = snd (server13_close E c)) by (rewrite <- snd_no_output, Hk; reflexivity).
      rewrite K. unfold server13_close. unfold bind at 1, get. destruct (xs_state c) eqn:Hst; try discriminate Hf; try apply PO.
      unfold bind. destruct (yeng_eng (create_cipher13 E CT_ALERT (g_epoch (xs_eng c)) false [1; 0]) c) as [X1 X2].
      pose proof (unPres _ _ (if_cipher _ _ F CT_ALERT (g_epoch (xs_eng c)) [1; 0]) (xs_eng c)) as TO. rewrite <- X1 in TO.
      destruct (yeng (create_cipher13 E CT_ALERT (g_epoch (xs_eng c)) false [1; 0]) c) as [[[]|e|m] c2]; cbn [snd] in *; [|exact TO..].
      destruct (yeng_eng cancel_flights c2) as [Y1 Y2]. pose proof (unPres _ _ (if_cancel _ _ F) (xs_eng c2)) as TC. rewrite <- Y1 in TC.
      destruct (yeng cancel_flights c2) as [[[]|e|m] c3]; cbn [snd modify] in *; (eapply PO; [exact TO|exact TC]).
Qed.
End FinSplit.

(** ** The receive keys *)

Definition recv_ids (e : Eng13) : list (N * Keys13) := map (fun x => (re_epoch x, re_keys x)) (g_recv e).
(** The keys of the epoch after the newest one are added; of four the oldest goes. *)
Definition next_recv (E : Env) (l l' : list (N * Keys13)) : Prop :=
  exists l0 ep cur ks, l = l0 ++ [(ep, cur)] /\ next_keys E cur ks /\
    l' = (if Nat.leb 4 (length l) then tl l else l) ++ [(u16 (ep + 1), ks)].
Definition sv (a b : Eng13) : Prop := recv_ids b = recv_ids a /\ g_peer_hs b = g_peer_hs a.
Lemma sv_po : preorder sv.
Proof. split; [split; reflexivity|]. intros a b c [A1 A2] [B1 B2]. split; congruence. Qed.
Ltac sv_pre PO := first [exact PO | intros; split; reflexivity | intros ? ?; split; reflexivity].

Lemma sv_replay ep n s : sv s (replay_update13 ep n s).
Proof.
  unfold replay_update13. destruct (ep =? 2); [split; reflexivity|]. split; [|reflexivity].
  unfold recv_ids. cbn [g_recv set_g_recv]. induction (g_recv s) as [|x l IH]; [reflexivity|]. cbn [upd_recv map].
  destruct (re_epoch x =? ep); cbn [map]; f_equal; try exact IH; reflexivity.
Qed.
Lemma sv_rec E raw : pres sv (rec_parse13 E raw).
Proof.
  pose proof sv_po as PO. unfold rec_parse13. presauto PO ltac:(first [apply op_unmask; exact PO|apply op_suite_provider; exact PO|idtac]).
  apply pres_modify. intro s. apply sv_replay.
Qed.
Ltac svf PO := fr13o ltac:(idtac; lazymatch goal with |- pres _ (rec_parse13 _ _) => apply sv_rec end) ltac:(sv_pre PO).
Lemma sv_io E : io_frame13 E sv.
Proof. pose proof sv_po as PO. constructor; svf PO. Qed.
Lemma sv_needs : pres sv take_needs_key_update.
Proof. pose proof sv_po as PO. svf PO. Qed.
Lemma sv_ku E b : pres sv (create_key_update E b).
Proof. pose proof sv_po as PO. svf PO. Qed.
Lemma sv_next : pres sv (next_handshake13_gen false false MT_KeyUpdate).
Proof. pose proof sv_po as PO. svf PO. Qed.
Lemma sv_ack E : pres sv (send_ack13 E).
Proof. pose proof sv_po as PO. svf PO. Qed.

(** The error a computation may return. *)
Definition loud {S A} (m : M S A) : Prop := forall s, fst (m s) <> Err ETransient.
Lemma loud_bind {S A B} (m : M S A) (k : A -> M S B) : loud m -> (forall a, loud (k a)) -> loud (bind m k).
Proof.
  intros Hm Hk s. unfold bind. specialize (Hm s). destruct (m s) as [[a|e|n] s1]; cbn [fst] in *; [apply Hk|congruence|discriminate].
Qed.
Lemma loud_ret {S A} (a : A) : loud (ret a : M S A).
Proof. intros s. discriminate. Qed.
Lemma loud_fail {S A} e : e <> ETransient -> loud (fail e : M S A).
Proof. intros H s. unfold fail. cbn [fst]. congruence. Qed.
Lemma loud_panic {S A} n : loud (panic n : M S A).
Proof. intros s. discriminate. Qed.
Lemma loud_get {S} : loud (get : M S S).
Proof. intros s. discriminate. Qed.
Lemma loud_modify {S} (f : S -> S) : loud (modify f).
Proof. intros s. discriminate. Qed.
Ltac loud := repeat first [apply loud_bind; [|intro] | apply loud_ret | apply loud_panic | apply loud_get | apply loud_modify
  | apply loud_fail; discriminate | match goal with |- loud (when ?b _) => unfold when; destruct b | |- loud (match ?x with _ => _ end) => destruct x end ].
Lemma loud_cipher E ct ep b fr : loud (create_cipher13 E ct ep b fr).
Proof. unfold create_cipher13, save13, enqueue13, suite_provider13. loud. Qed.
Lemma loud_ack E : loud (send_ack13 E).
Proof.
  unfold send_ack13, send_ack_inner. apply loud_bind; [apply loud_get|intro a]. destruct (g_rrn a); [apply loud_ret|].
  apply loud_bind; [apply loud_modify|intro]. apply loud_cipher.
Qed.

Lemma update_recv_spec E s :
  wp (update_recv_keys E) (fun r s' => match r with
  | Ok _ => next_recv E (recv_ids s) (recv_ids s') /\ g_peer_hs s' = g_peer_hs s
  | Err e => sv s s' /\ e <> ETransient
  | Panic _ => True
  end) s.
Proof.
  unfold update_recv_keys. apply wp_bind, wp_get.
  destruct (rev (g_recv s)) as [|latest l] eqn:Hr; [apply wp_fail; split; [apply sv_po|discriminate]|].
  assert (Hl : g_recv s = rev l ++ [latest]) by (rewrite <- (rev_involutive (g_recv s)), Hr; reflexivity).
  apply wp_bind.
  eapply wp_mono with (P := fun r b => b = s /\ match r with
    | Ok nx => exists h, hkdf_expand_label13 E h (ek_secret (re_keys latest)) (str "traffic upd"%string) [] (hash_len h) = Some nx
    | Err e => e <> ETransient | _ => True end).
  { unfold derive_next_secret, hash_alg13, label13. apply wp_bind, wp_bind, wp_get. destruct (g_suite s); [|apply wp_panic; auto].
    apply wp_ret, wp_of_opt. destruct (hkdf_expand_label13 _ _ _ _ _ _) eqn:Hx; [|split; [reflexivity|discriminate]]. split; [reflexivity|eexists; exact Hx]. }
  intros [nx|e|n] b [-> HN]; [|split; [apply sv_po|exact HN]|exact I]. apply wp_bind.
  eapply wp_mono with (P := fun r b => b = s /\ match r with Ok ks => ek_secret ks = nx | Err e => e <> ETransient | _ => True end).
  { unfold derive_epoch_keys, hash_alg13, suite_provider13, label13. wps; split; reflexivity || exact I || discriminate. }
  intros [ks|e|n] b [-> HK]; [|split; [apply sv_po|exact HK]|exact I].
  assert (NK : next_keys E (re_keys latest) ks) by (destruct HN as (h & HN); exists h; rewrite HK; exact HN).
  apply wp_bind. unfold when. destruct (Nat.leb 4 (length (g_recv s))) eqn:H4.
  - apply wp_modify. unfold push_recv. apply wp_bind, wp_get. cbn [g_recv set_g_recv].
    destruct (Nat.leb 4 (length (tl (g_recv s)))); [apply wp_panic; exact I|]. apply wp_modify. split; [|reflexivity].
    exists (map (fun x => (re_epoch x, re_keys x)) (rev l)), (re_epoch latest), (re_keys latest), ks.
    unfold recv_ids. cbn [g_recv set_g_recv]. rewrite map_length, H4. split; [rewrite Hl, map_app; reflexivity|].
    split; [exact NK|]. rewrite map_app. cbn [map re_epoch re_keys]. destruct (g_recv s); reflexivity.
  - apply wp_ret. unfold push_recv. apply wp_bind, wp_get. rewrite H4. apply wp_modify. split; [|reflexivity].
    exists (map (fun x => (re_epoch x, re_keys x)) (rev l)), (re_epoch latest), (re_keys latest), ks.
    unfold recv_ids. cbn [g_recv set_g_recv]. rewrite map_length, H4. split; [rewrite Hl, map_app; reflexivity|].
    split; [exact NK|]. rewrite map_app. reflexivity.
Qed.

(** What one step of a connected endpoint does to its receive keys. *)
Definition recv_res (E : Env) (r : res unit) (a b : Eng13) : Prop :=
  sv a b \/
  match r with
  | Ok _ => next_recv E (recv_ids a) (recv_ids b) /\ g_peer_hs b = u16 (g_peer_hs a + 1)
  | Err e => e <> ETransient /\ next_recv E (recv_ids a) (recv_ids b) /\ g_peer_hs b = g_peer_hs a
  | Panic _ => True
  end.
Definition done_of {A} (r : res A) : res unit := match r with Ok _ => Ok tt | Err e => Err e | Panic n => Panic n end.

Section RecvStep.
Variable E : Env.
Context {S : Type} (g : S -> Eng13) (put : Eng13 -> S -> S).
Hypothesis gp : forall e s, g (put e s) = e.
Let eng {A} (m : M Eng13 A) : M S A := zoom g put m.
Let Q {A} (e0 : Eng13) (r : res A) (s : S) : Prop := recv_res E (done_of r) e0 (g s).

Definition svg (a b : S) : Prop := sv (g a) (g b).
Lemma svg_po : preorder svg.
Proof. split; intros; [apply sv_po|eapply sv_po; eassumption]. Qed.
Lemma svg_eng {A} (m : M Eng13 A) : pres sv m -> pres svg (zoom g put m).
Proof. intros Hm s. unfold zoom, svg. specialize (Hm (g s)). destruct (m (g s)) as [r1 e1]; cbn [snd] in *. rewrite gp. exact Hm. Qed.
Lemma keep_all {A B} e0 (m : M S A) (k : A -> M S B) s : pres svg m -> sv e0 (g s) ->
  (forall a s', sv e0 (g s') -> wp (k a) (Q e0) s') -> wp (bind m k) (Q e0) s.
Proof.
  intros Hm H Hk. apply wp_bind, wp_intro. intros r s' Hr. specialize (Hm s). rewrite Hr in Hm. cbn [snd] in Hm.
  assert (K : sv e0 (g s')) by (eapply sv_po; eassumption).
  destruct r as [a|e|n]; [apply Hk, K|left; exact K..].
Qed.
(** The update itself, the acknowledgement and the rest. *)
Lemma recv_tail {B} e0 (k : M S B) s : sv e0 (g s) ->
  (forall s', wp k (fun r s'' => match r with Ok _ => recv_ids (g s'') = recv_ids (g s') /\ g_peer_hs (g s'') = u16 (g_peer_hs (g s') + 1) | _ => False end) s') ->
  wp (bind (eng (update_recv_keys E)) (fun _ => bind (eng (send_ack13 E)) (fun _ => k))) (Q e0) s /\
  wp (bind (eng (update_recv_keys E)) (fun _ => k)) (Q e0) s.
Proof.
  intros H Hk. destruct H as [H1 H2].
  assert (G : forall r e1, update_recv_keys E (g s) = (r, e1) -> match r with
     | Ok _ => next_recv E (recv_ids e0) (recv_ids e1) /\ g_peer_hs e1 = g_peer_hs e0 | Err e => sv e0 e1 | Panic _ => True end).
  { intros r e1 Hu. pose proof (wp_run _ _ _ _ _ Hu (update_recv_spec E (g s))) as K. destruct r as [[]|e|n]; [|destruct K as [[K1 K2] _]|exact I].
    - rewrite H1, H2 in K. exact K.
    - split; congruence. }
  split; apply wp_bind, wp_intro; intros r s1 Hr; unfold eng, zoom in Hr;
    destruct (update_recv_keys E (g s)) as [r1 e1]; injection Hr as <- <-; specialize (G _ _ eq_refl);
    (destruct r1 as [[]|e|n]; [|left; rewrite gp; exact G|right; exact I]).
  - apply wp_bind, wp_intro. intros r2 s2 Hr2. unfold eng, zoom in Hr2. rewrite gp in Hr2.
    pose proof (loud_ack E e1) as L. pose proof (sv_ack E e1) as [V1 V2].
    destruct (send_ack13 E e1) as [r3 e3]; cbn [fst snd] in *. injection Hr2 as <- <-.
    destruct r3 as [[]|e|n].
    + eapply wp_mono; [apply Hk|]. cbv beta. intros r4 s4 K4. destruct r4; [|contradiction..]. rewrite gp in K4.
      right. cbn [done_of]. destruct G as [G1 G2]. destruct K4 as [K5 K6]. rewrite K5, K6, V1, V2, G2. split; [exact G1|reflexivity].
    + right. cbn [done_of]. rewrite gp, V1, V2. split; [intros ->; apply L; reflexivity|exact G].
    + right. exact I.
  - eapply wp_mono; [apply Hk|]. cbv beta. intros r4 s4 K4. destruct r4; [|contradiction..]. rewrite gp in K4.
    right. cbn [done_of]. destruct G as [G1 G2]. destruct K4 as [K5 K6]. rewrite K5, K6, G2. split; [exact G1|reflexivity].
Qed.
End RecvStep.


Ltac keepers := first [exact sv_needs | apply sv_ku | exact sv_next | apply sv_ack | apply (unPres _ _ (if_cipher _ _ (sv_io _) _ _ _))].
Lemma recv_x_step E c : fin_x (xc_state c) = true -> wp (x_step E (xc_state c)) (fun r c' => recv_res E (done_of r) (xc_eng c) (xc_eng c')) c.
Proof.
  intros Hf. assert (GP : forall e s, xc_eng (set_xc_eng e s) = e) by reflexivity.
  pose proof (svg_po (S := Client13) xc_eng) as PO.
  assert (LEAF : forall A (m : M Eng13 A), pres sv m -> pres (svg xc_eng) (xeng m)) by (intros; apply svg_eng; assumption).
  set (e0 := xc_eng c). assert (H0 : sv e0 (xc_eng c)) by apply sv_po.
  destruct (xc_state c); try discriminate Hf; cbn [x_step]; clear Hf.
  - unfold x_await_application_data, next_handshake13_no_transcript.
    repeat (first [apply (keep_all E xc_eng) | apply wp_bind, wp_get];
      [presauto PO ltac:(first [apply LEAF; keepers | apply pres_modify; intro; apply sv_po])|assumption|intros ? ? ?]).
    match goal with |- wp (if ?b then _ else _) _ _ => destruct b end; [apply wp_ret; left; assumption|].
    apply (keep_all E xc_eng); [apply LEAF; keepers|assumption|]. intros [m|] c1 HQ; [|apply wp_ret; left; exact HQ].
    destruct (n_body m); try (apply wp_panic; left; exact HQ).
    refine (proj1 (recv_tail E xc_eng set_xc_eng GP e0 _ c1 HQ _)). intros c2.
    apply wp_bind, wp_get, wp_bind. unfold when. destruct (_ && _); [apply wp_modify|apply wp_ret]; apply wp_bind;
      (unfold xeng, advance_peer; apply wp_zoom, wp_modify, wp_ret; split; reflexivity).
  - unfold x_half_closed_local, next_handshake13_no_transcript. apply wp_bind, wp_get, wp_bind.
    apply wp_mono with (P := fun (r : res unit) c' => recv_res E (done_of r) e0 (xc_eng c')).
    2:{ intros [[]|e|n] c1 K; exact K. }
    destruct (has_complete13 _ _); [|apply wp_ret; left; exact H0].
    apply (keep_all E xc_eng); [apply LEAF; keepers|assumption|]. intros [m|] c1 HQ; [|apply wp_ret; left; exact HQ].
    destruct (n_body m); try (apply wp_panic; left; exact HQ).
    refine (proj2 (recv_tail E xc_eng set_xc_eng GP e0 _ c1 HQ _)). intros c2.
    unfold xeng, advance_peer; apply wp_zoom, wp_modify; split; reflexivity.
  - apply wp_ret. left. exact H0.
Qed.
Lemma recv_y_step E c : fin_y (xs_state c) = true -> wp (y_step E (xs_state c)) (fun r c' => recv_res E (done_of r) (xs_eng c) (xs_eng c')) c.
Proof.
  intros Hf. assert (GP : forall e s, xs_eng (set_xs_eng e s) = e) by reflexivity.
  pose proof (svg_po (S := Server13) xs_eng) as PO.
  assert (LEAF : forall A (m : M Eng13 A), pres sv m -> pres (svg xs_eng) (yeng m)) by (intros; apply svg_eng; assumption).
  set (e0 := xs_eng c). assert (H0 : sv e0 (xs_eng c)) by apply sv_po.
  destruct (xs_state c); try discriminate Hf; cbn [y_step]; clear Hf.
  - unfold y_await_application_data, next_handshake13_no_transcript.
    repeat (first [apply (keep_all E xs_eng) | apply wp_bind, wp_get];
      [presauto PO ltac:(first [apply LEAF; keepers | apply pres_modify; intro; apply sv_po])|assumption|intros ? ? ?]).
    match goal with |- wp (if ?b then _ else _) _ _ => destruct b end; [apply wp_ret; left; assumption|].
    apply (keep_all E xs_eng); [apply LEAF; keepers|assumption|]. intros [m|] c1 HQ; [|apply wp_ret; left; exact HQ].
    destruct (n_body m); try (apply wp_panic; left; exact HQ).
    refine (proj1 (recv_tail E xs_eng set_xs_eng GP e0 _ c1 HQ _)). intros c2.
    apply wp_bind, wp_get, wp_bind. unfold when. destruct (_ && _); [apply wp_modify|apply wp_ret]; apply wp_bind;
      (unfold yeng, advance_peer; apply wp_zoom, wp_modify, wp_ret; split; reflexivity).
  - unfold y_half_closed_local, next_handshake13_no_transcript. apply wp_bind, wp_get, wp_bind.
    apply wp_mono with (P := fun (r : res unit) c' => recv_res E (done_of r) e0 (xs_eng c')).
    2:{ intros [[]|e|n] c1 K; exact K. }
    destruct (has_complete13 _ _); [|apply wp_ret; left; exact H0].
    apply (keep_all E xs_eng); [apply LEAF; keepers|assumption|]. intros [m|] c1 HQ; [|apply wp_ret; left; exact HQ].
    destruct (n_body m); try (apply wp_panic; left; exact HQ).
    refine (proj2 (recv_tail E xs_eng set_xs_eng GP e0 _ c1 HQ _)). intros c2.
    unfold yeng, advance_peer; apply wp_zoom, wp_modify; split; reflexivity.
  - apply wp_ret. left. exact H0.
Qed.

(** One call on a connected endpoint: the receive keys and the number of the next
    handshake message stay, or one key update of the peer is applied.  When the call
    fails the update may have been applied without being counted. *)
Lemma receive13 E k s r s' : fin13 s = true -> end13_call E k s = (r, s') ->
  sv (end13_eng s) (end13_eng s') \/
  match r with
  | Ok _ => next_recv E (recv_ids (end13_eng s)) (recv_ids (end13_eng s')) /\
            g_peer_hs (end13_eng s') = u16 (g_peer_hs (end13_eng s) + 1)
  | Err _ => next_recv E (recv_ids (end13_eng s)) (recv_ids (end13_eng s')) /\
            g_peer_hs (end13_eng s') = g_peer_hs (end13_eng s)
  | Panic _ => True
  end.
Proof.
  intros Hf Hc. destruct (fin_split E sv (sv_io E) _ _ _ _ Hf Hc) as [K|(s1 & rs & s2 & F1 & _ & _ & [R1 R2] & St & Eq & Rp)]; [left; exact K|].
  assert (K : recv_res E rs (end13_eng s1) (end13_eng s2)).
  { destruct s1 as [c|c]; cbn [step13 fin13 end13_eng] in *.
    - pose proof (recv_x_step E c F1) as W. unfold wp in W. destruct (x_step E (xc_state c) c) as [[st|e|n] c1]; injection St as <- <-; exact W.
    - pose proof (recv_y_step E c F1) as W. unfold wp in W. destruct (y_step E (xs_state c) c) as [[st|e|n] c1]; injection St as <- <-; exact W. }
  rewrite Eq. unfold recv_res, sv in *. rewrite R1, R2 in K. destruct K as [K|K]; [left; exact K|]. right.
  destruct rs as [[]|e|n]; cbn [reply_of] in Rp; [subst r; exact K| |subst r; exact I].
  destruct K as (K0 & K). destruct e; try contradiction; subst r; exact K.
Qed.

(** ** Starting key updates *)

(** With a key update in flight and none owed to the peer, no step starts another. *)
Definition ni (a b : Eng13) : Prop := g_inflight a = true -> g_inflight b = true /\ g_next_hs b = g_next_hs a.
Lemma ni_po : preorder ni.
Proof. split; [intros a H; auto|]. intros a b c H K Hi. destruct (H Hi) as [X1 X2]. destruct (K X1) as [Y1 Y2]. split; congruence. Qed.
Ltac ni_pre PO := first [exact PO | intros v s H; split; [exact H|reflexivity] | intros s H; split; [exact H|reflexivity]
   | intros v s _ H; split; [exact H|reflexivity] | intros; assumption].
Ltac nif PO := fr13 ltac:(ni_pre PO).
Lemma ni_x_step E c : fin_x (xc_state c) = true -> xc_pend c = false -> g_inflight (xc_eng c) = true ->
  g_next_hs (xc_eng (snd (x_step E (xc_state c) c))) = g_next_hs (xc_eng c).
Proof.
  intros Hf Hp Hi. pose proof ni_po as PO.
  assert (PX : preorder (fun a b => ni (xc_eng a) (xc_eng b))) by (split; intros; [apply PO|eapply PO; eassumption]).
  assert (LEAF : forall A (m : M Eng13 A), pres ni m -> pres (fun a b => ni (xc_eng a) (xc_eng b)) (xeng m)).
  { intros A m Hm s. unfold xeng, zoom. specialize (Hm (xc_eng s)). destruct (m (xc_eng s)); exact Hm. }
  destruct (xc_state c) eqn:Hst; try discriminate Hf; cbn [x_step].
  - unfold x_await_application_data. unfold bind at 1. unfold xeng at 1, zoom, take_needs_key_update.
    unfold bind at 1, get at 1. unfold bind at 1, modify at 1, ret at 1.
    unfold bind at 1, get at 1. cbn [xc_eng set_xc_eng g_inflight set_g_needs]. rewrite Hi, andb_false_r. cbn [when].
    unfold bind at 1, ret at 1. unfold bind at 1, get at 1. unfold bind at 1, modify at 1.
    cbn [xc_pend set_xc_eng set_xc_queued]. rewrite Hp.
    match goal with |- g_next_hs (xc_eng (snd (?m ?s))) = _ => cut (ni (xc_eng s) (xc_eng (snd (m s)))) end.
    { intros K. destruct (K Hi) as [_ K2]. exact K2. }
    match goal with |- ni _ (xc_eng (snd (?m ?s))) => cut (pres (fun a b => ni (xc_eng a) (xc_eng b)) m); [intro P; exact (P s)|] end.
    unfold next_handshake13_no_transcript. presauto PX ltac:(first [apply LEAF; nif PO | apply pres_modify; intro; apply PO]).
  - assert (P : pres (fun a b => ni (xc_eng a) (xc_eng b)) (x_half_closed_local E)).
    { unfold x_half_closed_local, next_handshake13_no_transcript.
      presauto PX ltac:(first [apply LEAF; nif PO | apply pres_modify; intro; apply PO]). }
    exact (proj2 (P c Hi)).
  - reflexivity.
Qed.
Lemma ni_y_step E c : fin_y (xs_state c) = true -> xs_pend c = false -> g_inflight (xs_eng c) = true ->
  g_next_hs (xs_eng (snd (y_step E (xs_state c) c))) = g_next_hs (xs_eng c).
Proof.
  intros Hf Hp Hi. pose proof ni_po as PO.
  assert (PX : preorder (fun a b => ni (xs_eng a) (xs_eng b))) by (split; intros; [apply PO|eapply PO; eassumption]).
  assert (LEAF : forall A (m : M Eng13 A), pres ni m -> pres (fun a b => ni (xs_eng a) (xs_eng b)) (yeng m)).
  { intros A m Hm s. unfold yeng, zoom. specialize (Hm (xs_eng s)). destruct (m (xs_eng s)); exact Hm. }
  destruct (xs_state c) eqn:Hst; try discriminate Hf; cbn [y_step].
  - unfold y_await_application_data. unfold bind at 1. unfold yeng at 1, zoom, take_needs_key_update.
    unfold bind at 1, get at 1. unfold bind at 1, modify at 1, ret at 1.
    unfold bind at 1, get at 1. cbn [xs_eng set_xs_eng g_inflight set_g_needs]. rewrite Hi, andb_false_r. cbn [when].
    unfold bind at 1, ret at 1. unfold bind at 1, get at 1. unfold bind at 1, modify at 1.
    cbn [xs_pend set_xs_eng set_xs_queued]. rewrite Hp.
    match goal with |- g_next_hs (xs_eng (snd (?m ?s))) = _ => cut (ni (xs_eng s) (xs_eng (snd (m s)))) end.
    { intros K. destruct (K Hi) as [_ K2]. exact K2. }
    match goal with |- ni _ (xs_eng (snd (?m ?s))) => cut (pres (fun a b => ni (xs_eng a) (xs_eng b)) m); [intro P; exact (P s)|] end.
    unfold next_handshake13_no_transcript. presauto PX ltac:(first [apply LEAF; nif PO | apply pres_modify; intro; apply PO]).
  - assert (P : pres (fun a b => ni (xs_eng a) (xs_eng b)) (y_half_closed_local E)).
    { unfold y_half_closed_local, next_handshake13_no_transcript.
      presauto PX ltac:(first [apply LEAF; nif PO | apply pres_modify; intro; apply PO]). }
    exact (proj2 (P c Hi)).
  - reflexivity.
Qed.

(** Receiving, sending and polling start no key update and end one only by a switch to
    the next epoch. *)
Definition landed (a b : Eng13) : Prop :=
  (g_inflight a = false -> g_inflight b = false /\ g_epoch b = g_epoch a) /\
  (g_inflight a = true -> (g_inflight b = true /\ g_epoch b = g_epoch a) \/ (g_inflight b = false /\ g_epoch b = u16 (g_epoch a + 1))).
Lemma landed_po : preorder landed.
Proof.
  split; [intros a; split; auto|]. intros a b c [A1 A2] [B1 B2]. split.
  - intros Hi. destruct (A1 Hi) as [X1 X2]. destruct (B1 X1) as [Y1 Y2]. split; congruence.
  - intros Hi. destruct (A2 Hi) as [[X1 X2]|[X1 X2]].
    + destruct (B2 X1) as [[Y1 Y2]|[Y1 Y2]]; [left; split; congruence|right; rewrite <- X2; auto].
    + destruct (B1 X1) as [Y1 Y2]. right. split; congruence.
Qed.
Definition nh_same (a b : Eng13) : Prop := g_next_hs b = g_next_hs a.
Lemma nh_po : preorder nh_same.
Proof. split; [reflexivity|]. unfold nh_same. intros. congruence. Qed.
Lemma nh_io E : io_frame13 E nh_same.
Proof. pose proof nh_po as PO. constructor; fr13 ltac:(first [exact PO | intros; reflexivity]). Qed.
Ltac ld := split; intros ?; [split; [assumption|reflexivity]|left; split; [assumption|reflexivity]].
Lemma landed_io E : io_frame13 E landed.
Proof.
  pose proof landed_po as PO. constructor; fr13o ltac:(idtac; lazymatch goal with
    | |- pres _ (process_ack _ _) => 
        intros s; match goal with |- context [process_ack ?E ?d] =>
          let K := fresh in pose proof (process_ack_step E (fun _ _ => True) d s (fun _ _ _ _ _ => Logic.I)) as K;
          destruct K as [(_ & K1 & K2 & _)|(K0 & _ & [(cur & ks & _ & _ & K1 & _ & K2 & _)|(_ & K1 & K2 & _)])];
          split; intros Hi; try congruence; [split; congruence|left; split; congruence|right; split; congruence|left; split; congruence] end
    end) ltac:(first [exact PO | intros v s; ld | intros s; ld | intros v s _; ld | intros; assumption]).
Qed.
Lemma io_and E R1 R2 : io_frame13 E R1 -> io_frame13 E R2 -> io_frame13 E (fun a b => R1 a b /\ R2 a b).
Proof.
  intros F G. constructor.
  - split; [intro; split; [apply F|apply G]|]. intros a b c [A1 A2] [B1 B2]. split; [eapply (if_po _ _ F)|eapply (if_po _ _ G)]; eassumption.
  - intros; split; [apply F|apply G].
  - intros; apply Pres_intro; intro; split; [apply (unPres _ _ (if_cipher _ _ F _ _ _))|apply (unPres _ _ (if_cipher _ _ G _ _ _))].
  - intros; apply Pres_intro; intro; split; [apply (unPres _ _ (if_cancel _ _ F))|apply (unPres _ _ (if_cancel _ _ G))].
  - intros; apply Pres_intro; intro; split; [apply (unPres _ _ (if_parse _ _ F _))|apply (unPres _ _ (if_parse _ _ G _))].
  - intros; apply Pres_intro; intro; split; [apply (unPres _ _ (if_poll _ _ F _ _))|apply (unPres _ _ (if_poll _ _ G _ _))].
  - intros; apply Pres_intro; intro; split; [apply (unPres _ _ (if_timeout _ _ F _))|apply (unPres _ _ (if_timeout _ _ G _))].
Qed.
Lemma u16_next n : u16 (n + 1) <> n.
Proof. unfold u16. change (2 ^ 16) with 65536. pose proof (N.mod_upper_bound (n + 1) 65536). intros K. 
  pose proof (N.div_mod (n + 1) 65536). lia. Qed.

(** While a key update is in flight and no answer is owed, the number of the next own
    handshake message stays until the switch to the next epoch. *)
Lemma in_flight13 E k s r s' : fin13 s = true -> pend13 s = false -> g_inflight (end13_eng s) = true ->
  end13_call E k s = (r, s') ->
  g_next_hs (end13_eng s') = g_next_hs (end13_eng s) \/ g_epoch (end13_eng s') = u16 (g_epoch (end13_eng s) + 1).
Proof.
  intros Hf Hp Hi Hc.
  destruct (fin_split E _ (io_and E _ _ (nh_io E) (landed_io E)) _ _ _ _ Hf Hc) as [[K _]|(s1 & rs & s2 & F1 & P1 & _ & [R1 [_ R2]] & St & Eq & Rp)];
    [left; exact K|].
  assert (KK : g_epoch (end13_eng s2) = g_epoch (end13_eng s1)).
  { destruct s1 as [c|c]; cbn [step13 fin13 end13_eng] in *.
    - pose proof (fin_x_step E _ (keys_kept_fin E) _ F1 c) as W. destruct (x_step E (xc_state c) c) as [[st|e|n] c1]; injection St as <- <-; apply W.
    - pose proof (fin_y_step E _ (keys_kept_fin E) _ F1 c) as W. destruct (y_step E (xs_state c) c) as [[st|e|n] c1]; injection St as <- <-; apply W. }
  rewrite Eq. destruct (R2 Hi) as [[X1 X2]|[X1 X2]]; [left|right; congruence]. rewrite <- R1.
  rewrite Hp in P1. destruct s1 as [c|c]; cbn [step13 fin13 end13_eng pend13] in *.
  - pose proof (ni_x_step E c F1 P1 X1) as W. destruct (x_step E (xc_state c) c) as [[st|e|n] c1]; injection St as <- <-; exact W.
  - pose proof (ni_y_step E c F1 P1 X1) as W. destruct (y_step E (xs_state c) c) as [[st|e|n] c1]; injection St as <- <-; exact W.
Qed.
