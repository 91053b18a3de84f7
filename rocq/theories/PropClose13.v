(** C21 and C22 for DTLS 1.3: what is delivered on an established connection, and how it ends.

    Vocabulary: [reach13 E cfg cert key h s]: the endpoint (client or server) is in
    state [s] after the calls and replies [h]; [history13 E s h2 s2]: the further calls
    and replies [h2] lead from [s] to [s2].  [was_connected13 h s]: Connected was reported
    in [h] or is waiting to be polled.  [app_data os]: the contents of the ApplicationData
    outputs among [os].  [pending13 s]: the outputs polling would give, in order, before
    it answers with a timeout.  [records13 p]: the datagram [p] cut into records;
    [opens13 E e raw t ep n content]: the record [raw] opens, under the key [e] receives
    epoch [ep] with and the nonce of record number [n], to [content] of inner type [t].
    [g_cn e]: the epoch and number of the close_notify received, if any. *)
From Coq Require Import String Permutation.
From Verif Require Import Prelude PreludeFacts Types Codec Codec12 Codec13 Record12 Record13 Spec Spec13 Monad MonadFacts Timer
  Env Config Aead Engine12 Client12 Engine13 Client13 Server13 Toy Context12 History12 History12Facts Lift12 Poll12Proofs Rx12Ledger Conn12 History13 Conn13
  Frame13 Lift13 Index13 Ledger12 Trace13 Trace13Proofs Out13 Rx13Proofs PropRx12 PropRx13 Open13 Poll13Proofs Fin13 KeyUpd13 Recv13 Est13 PropTimer13 PropSeal13 Alert13 PropAlert13 Close13 Early13.
Close Scope string_scope.

Definition no_panic (h : list (Call * Reply)) : Prop := Forall (fun x => ~ panicked (snd x)) h.

(** The item [d] arrived during the calls [h2] made from [s]: some [Packet p] call among
    them, made in a state [s1], was given a datagram with a record that opens to [d] as
    application data, with an epoch and number that satisfy [ok]. *)
Definition arrived_in13 (E : Env) (s : End13) (h2 : list (Call * Reply)) (ok : N -> N -> Prop) (d : bytes) : Prop :=
  exists h1 s1 p r h3 raw ep n, h2 = h1 ++ (Packet p, r) :: h3 /\ history13 E s h1 s1 /\
    In raw (records13 p) /\ opens13 E (end13_eng s1) raw CT_APP ep n d /\ ok ep n.

Lemma arrived_in E s h2 items d : fin13 s = true -> up13 (end13_eng s) ->
  (forall h' s', history13 E s h' s' -> no_panic h' -> poll13_wf s') ->
  arrived13 E s h2 items -> In d items -> no_panic (removelast h2) ->
  arrived_in13 E s h2 (fun ep n => g_cn (end13_eng s) <> None -> before_close (end13_eng s) ep n) d.
Proof.
  intros F U W A. induction A as [|h items k r s1 more A IH H T]; intros Hd NP; [destruct Hd|].
  rewrite removelast_last in NP. apply in_app_or in Hd as [Hd|Hd].
  - destruct IH as (h1 & x & p & r1 & h3 & raw & ep & n & -> & X); [exact Hd| |].
    + destruct (exists_last (l := h)) as (h' & z & ->); [intros ->; inversion A as [|? ? ? ? ? ? ? ? ? Q]; subst; [destruct Hd|destruct h; discriminate]|].
      rewrite removelast_last. apply Forall_app in NP. apply NP.
    + exists h1, x, p, r1, (h3 ++ [(k, r)]), raw, ep, n. split; [rewrite <- app_assoc; reflexivity|exact X].
  - destruct k as [p|cap|now|d0|]; cbn [takes_call] in T; try (subst more; destruct Hd; fail).
    destruct T as (raws & Sb & F2). 
    assert (Hx : exists raw, In raw raws /\ exists ep n, opens13 E (end13_eng s1) raw CT_APP ep n d /\ before_close (end13_eng s1) ep n).
    { clear - F2 Hd. induction F2 as [|raw x raws more P F2 IH]; [destruct Hd|]. destruct Hd as [<-|Hd]; [exists raw; split; [left; reflexivity|exact P]|].
      destruct (IH Hd) as (y & Y1 & Y2). exists y. split; [right; exact Y1|exact Y2]. }
    destruct Hx as (raw & X1 & ep & n & X2 & X3).
    exists h, s1, p, r, [], raw, ep, n. split; [reflexivity|]. split; [exact H|]. split; [exact (sub_incl _ _ Sb _ X1)|]. split; [exact X2|].
    intros N. destruct (history_data E s h s1 F U W H) as (_ & _ & _ & _ & _ & C). unfold before_close in *. rewrite C in X3 by exact N. exact X3.
Qed.

Lemma later_wf E cfg cert key h s : reach13 E cfg cert key h s -> no_panic h ->
  forall h' s', history13 E s h' s' -> no_panic h' -> poll13_wf s'.
Proof. intros HR NP h' s' H _. eapply reach13_poll_wf, reach13_trans; eassumption. Qed.

(** ** C21 *)

(** No application data before Connected. *)
Theorem C21_not_before_connected13 : forall E cfg cert key h s, reach13 E cfg cert key h s ->
  ~ was_connected13 h s -> app_data (outputs h) = [].
Proof.
  intros E cfg cert key h s HR NW.
  assert (X : app_data (outputs h) = [] \/ g_release (end13_eng s) = true).
  { destruct HR as (s0 & H0 & H). clear NW. induction H as [|h s k r s' H IH NP Hc]; [left; reflexivity|].
    rewrite outputs_snoc, app_data_app. pose proof (lf_end13_call E _ (release_mono E) _ _ _ _ Hc) as RM. cbv beta in RM.
    destruct IH as [IH|IH]; [|right; exact (RM IH)]. rewrite IH. cbn [app].
    destruct (g_release (end13_eng s)) eqn:R; [right; apply RM; reflexivity|left].
    destruct (match k with Poll _ => true | _ => false end) eqn:Hk.
    - destruct k; try discriminate. destruct (end13_events s) as [|v l] eqn:He.
      + rewrite poll13_unfold, He in Hc. destruct (eng13_poll_output cap (end13_now s) (end13_eng s)) as [o e] eqn:Hp. injection Hc as <- _.
        pose proof (unreleased_poll _ _ _ _ _ Hp R) as U. destruct o as [[]|x|x]; try contradiction; reflexivity.
      + destruct (event_popped E cap s r s' v l He Hc) as (_ & _ & _ & P4). destruct r as [[o|]|x|x]; try reflexivity.
        specialize (P4 o (or_introl eq_refl)). destruct o; try contradiction; reflexivity.
    - rewrite (quiet_call E k s r s'); [reflexivity| |exact Hc]. destruct k; [exact I|discriminate|exact I..]. }
  destruct X as [X|X]; [exact X|]. exfalso. apply NW. exact (released_seen _ _ _ _ _ _ HR X).
Qed.
Print Assumptions C21_not_before_connected13.

(** On an established connection, the data delivered by later polls is contained, with
    multiplicity, in what was waiting when the connection was established and the items
    that arrived: one item for each record taken, each record a record of a datagram
    received, opened under a receive key of the connection.  Missing for the full
    property: what was waiting may have been injected (C21_injected_data13_refuted);
    that no record number is taken twice is C03. *)
Theorem C21_delivered_once13_partial : forall E cfg cert key h s h2 s2,
  reach13 E cfg cert key h s -> no_panic h -> was_connected13 h s -> history13 E s h2 s2 ->
  exists items, arrived13 E s h2 items /\ within (app_data (outputs h2)) (waiting13 (end13_eng s) ++ items).
Proof.
  intros E cfg cert key h s h2 s2 HR NP W H. destruct (connected_up13 E cfg cert key h s HR W) as (F & U).
  destruct (history_data E s h2 s2 F U (later_wf E _ _ _ _ _ HR NP) H) as (items & A & B & _).
  exists items. split; [exact A|]. eapply within_trans; [|exact B]. exists (waiting13 (end13_eng s2)). apply Permutation_refl.
Qed.
Print Assumptions C21_delivered_once13_partial.

(** ** C22 *)

(** CloseNotify is reported at most once, in every history. *)
Theorem C22_reported_once13 : forall E cfg cert key h s, reach13 E cfg cert key h s -> (close_notes (outputs h) <= 1)%nat.
Proof.
  intros E cfg cert key h s (s0 & H0 & H).
  assert (X : (close_notes (outputs h) <= 1)%nat /\ (close_notes (outputs h) <> 0%nat -> reported13 (end13_eng s))); [|exact (proj1 X)].
  induction H as [|h s1 k r s' H IH NP Hc]; [split; [auto|intros N; contradiction N; reflexivity]|].
  assert (EQ : close_notes (outputs (h ++ [(k, r)])) = (close_notes (outputs h) + close_notes (output_in r))%nat).
  { unfold outputs, close_notes. rewrite flat_map_app, filter_app, app_length. cbn [flat_map snd]. rewrite app_nil_r. reflexivity. }
  rewrite EQ. destruct IH as [I1 I2].
  pose proof (lf_end13_call E _ (reported_mono E) _ _ _ _ Hc) as RM. cbv beta in RM.
  assert (D : close_notes (output_in r) = 0%nat \/ r = Ok (Some OCloseNotify)).
  { destruct r as [[[]|]|x|x]; try (left; reflexivity). right; reflexivity. }
  destruct D as [D| ->].
  - rewrite D, Nat.add_0_r. split; [exact I1|]. intros N. apply RM, I2, N.
  - destruct (call_close E k s1 s') as (_ & N & R); [|exact Hc|].
    { eapply reach13_poll_wf. exists s0. split; eassumption. }
    assert (Z : close_notes (outputs h) = 0%nat) by (destruct (close_notes (outputs h)); [reflexivity|exfalso; apply N, I2; discriminate]).
    rewrite Z. split; [apply Nat.le_refl|]. intros _. exact R.
Qed.
Print Assumptions C22_reported_once13.

(** When it is reported, nothing else is waiting to be polled: everything received
    before was delivered, in every history. *)
Theorem C22_close_is_last13 : forall E cfg cert key h s k s',
  reach13 E cfg cert key h s -> end13_call E k s = (Ok (Some OCloseNotify), s') -> pending13 s = [OCloseNotify].
Proof. intros E cfg cert key h s k s' HR H. apply (call_close E k s s' (reach13_poll_wf _ _ _ _ _ _ HR) H). Qed.
Print Assumptions C22_close_is_last13.

(** Once a close_notify was received on an established connection, the data later polls
    deliver was waiting by then, or arrives in records whose epoch and number do not
    follow those of the close_notify. *)
Theorem C22_no_later_data13 : forall E cfg cert key h s h2 s2 cep cn d,
  reach13 E cfg cert key h s -> no_panic h -> was_connected13 h s -> g_cn (end13_eng s) = Some (cep, cn) ->
  history13 E s h2 s2 -> In d (app_data (outputs h2)) ->
  In (OAppData d) (pending13 s) \/ arrived_in13 E s h2 (fun ep n => ep < cep \/ ep = cep /\ n <= cn) d.
Proof.
  intros E cfg cert key h s h2 s2 cep cn d HR NP W Hc H Hd. destruct (connected_up13 E cfg cert key h s HR W) as (F & U).
  pose proof (later_wf E _ _ _ _ _ HR NP) as WF.
  destruct (history_data E s h2 s2 F U WF H) as (items & A & B & _).
  assert (Hi : In d (waiting13 (end13_eng s) ++ items)) by (eapply within_In; [exact B|apply in_or_app; left; exact Hd]).
  apply in_app_or in Hi as [Hi|Hi].
  - left. unfold pending13. apply in_or_app; right. rewrite <- (pending_data _ (proj2 U)) in Hi.
    clear - Hi. induction (eng13_pending (end13_eng s)) as [|o os IH]; [destruct Hi|]. destruct o; cbn [app_data flat_map] in Hi; try (right; apply IH, Hi).
    destruct Hi as [->|Hi]; [left; reflexivity|right; apply IH, Hi].
  - right. destruct (arrived_in E s h2 items d F U WF A Hi) as (h1 & s1 & p & r & h3 & raw & ep & n & X1 & X2 & X3 & X4 & X5).
    + destruct H as [|h0 s1 k r s' H NP2 Hk]; [constructor|]. rewrite removelast_last. exact NP2.
    + exists h1, s1, p, r, h3, raw, ep, n. do 4 (split; [assumption|]). apply X5; [congruence|exact Hc].
Qed.
Print Assumptions C22_no_later_data13.

(** A record taken for a close_notify, whatever its level, is remembered with its number;
    the call adds no data to what is waiting. *)
Theorem C22_close_noted13 : forall E cfg cert key h s raw ep n lvl rest r s',
  reach13 E cfg cert key h s -> was_connected13 h s -> g_cn (end13_eng s) = None ->
  takes13 E (end13_eng s) raw CT_ALERT ep n (lvl :: 0 :: rest) -> ep <> 0 ->
  end13_call E (Packet raw) s = (r, s') ->
  g_cn (end13_eng s') = Some (ep, n) /\ within (waiting13 (end13_eng s')) (waiting13 (end13_eng s)).
Proof.
  intros E cfg cert key h s raw ep n lvl rest r s' HR W Hn (T1 & rc & e' & T2 & T3 & T4 & T5 & T6) He H.
  destruct (connected_up13 E cfg cert key h s HR W) as (F & U).
  destruct (fin_call E _ (wkr_fin E) _ _ _ _ F H) as (F' & K1 & K2 & K3). cbn [parsed13] in K3, K1.
  pose proof (parse_one_close E raw (end13_eng s) rc e' lvl rest (proj1 U) T1 T2 T3) as P. rewrite T4 in P. specialize (P He T6 Hn).
  rewrite P in K3, K1. cbn [snd] in K3, K1. rewrite T5 in K3. split; [exact K3|].
  destruct (rec_parse_keeps E _ _ _ _ T2) as (_ & _ & _ & K & _).
  cbn [set_g_cn g_rx] in K1. rewrite K in K1. apply within_sub, contents_wk, K1.
Qed.
Print Assumptions C22_close_noted13.

(** Conversely, on an established connection a close_notify is remembered only from an
    authentic close_notify record, with that record's epoch and number. *)
Theorem C22_noted_is_authentic13 : forall E cfg cert key h s k r s' ep n,
  reach13 E cfg cert key h s -> was_connected13 h s -> g_cn (end13_eng s) = None ->
  end13_call E k s = (r, s') -> g_cn (end13_eng s') = Some (ep, n) ->
  exists p lvl rest, k = Packet p /\ opened13 E (end13_eng s) p CT_ALERT ep n (lvl :: 0 :: rest).
Proof.
  intros E cfg cert key h s k r s' ep n HR W Hn H Hs. destruct (connected_up13 E cfg cert key h s HR W) as (F & U).
  exact (call_note E k s r s' ep n F U H Hn Hs).
Qed.
Print Assumptions C22_noted_is_authentic13.

(** A close_notify remembered and not yet reported to the user is the last of the outputs
    waiting, and polling gives it once it is the only one. *)
Theorem C22_close_is_reported13 : forall E cfg cert key h s, reach13 E cfg cert key h s ->
  g_cn (end13_eng s) <> None -> ~ In OCloseNotify (outputs h) ->
  exists before, pending13 s = before ++ [OCloseNotify] /\
    (before = [] -> forall cap, fst (end13_call E (Poll cap) s) = Ok (Some OCloseNotify)).
Proof.
  intros E cfg cert key h s HR Hn Hr.
  assert (Hr' : g_cn_rep (end13_eng s) = false) by (destruct (g_cn_rep (end13_eng s)) eqn:R; [elim Hr; exact (reported_seen _ _ _ _ _ _ HR R)|reflexivity]).
  assert (Hp : exists before, pending13 s = before ++ [OCloseNotify]).
  { unfold pending13, eng13_pending. rewrite Hr'. destruct (g_cn (end13_eng s)); [|contradiction]. cbn [is_some negb andb]. rewrite !app_assoc. eexists. reflexivity. }
  destruct Hp as (before & Hp). exists before. split; [exact Hp|]. intros -> cap. destruct (reach13_poll_wf _ _ _ _ _ _ HR) as [W1 W2].
  destruct (end13_call E (Poll cap) s) as [r s'] eqn:Hc. pose proof (poll13_pops E s cap r s' W1 W2 Hc) as P. rewrite Hp in P. cbn [app out_size] in P.
  cbn [fst]. destruct (0 <=? cap) eqn:L; [apply P|]. apply N.leb_gt in L. lia.
Qed.
Print Assumptions C22_close_is_reported13.

(** ** Examples *)

(** A close_notify and data, protected by the connected client in this order, that reach
    the connected server in the other order. *)
Definition ex_close : bytes := last (g_tx (snd (create_cipher13 toy CT_ALERT 3 false [1; 0] ex_cl))) [].
Definition ex_after : bytes :=
  last (g_tx (snd (create_cipher13 toy CT_APP 3 false [65] (set_g_tx [] (snd (create_cipher13 toy CT_ALERT 3 false [1; 0] ex_cl)))))) [].

Example C22_case13 :
  reach13 toy2 config_default [48; 9] (toy_key 9) (fst xs_run) (snd xs_run) /\
  forallb (fun x => match snd x with Panic _ => false | _ => true end) (fst xs_run) = true /\
  existsb (fun o => match o with OConnected => true | _ => false end) (outputs (fst xs_run)) = true /\
  g_cn ex_sv = None /\
  match fst (rec_parse13 toy2 ex_close ex_sv) with
  | Ok (Some r) => (r_ctype r, r_epoch r, r_seq r, r_frag r) = (CT_ALERT, 3, 0, [1; 0]) | _ => False end /\
  rec_bound13 ex_close = BRec (length ex_close) /\
  (let later := skipn (length (fst xs_run)) (fst (then13 toy2 xs_run [Packet ex_close; Packet ex_after; Poll 2000; Poll 2000])) in
   outputs later = [OCloseNotify; OTimeout 315360000000000005]).
Proof. split; [exact xs_run_reach|]. do 5 (split; [vm_compute; reflexivity|]). vm_compute; reflexivity. Qed.

(** "Data that follows by record number is never delivered" is false when the data
    arrives before the close_notify and is still waiting: then it is delivered, after
    the close_notify was received. *)
Theorem C22_later_number13_refuted : exists E cfg cert key h s p1 p2 s1 h2 s2 ep n cn d,
  reach13 E cfg cert key h s /\ was_connected13 h s /\
  takes13 E (end13_eng s) p1 CT_APP ep n d /\ takes13 E (end13_eng s) p2 CT_ALERT ep cn [1; 0] /\ cn < n /\
  history13 E s [(Packet p1, Ok None); (Packet p2, Ok None)] s1 /\ g_cn (end13_eng s1) = Some (ep, cn) /\
  history13 E s1 h2 s2 /\ app_data (outputs h2) = [d].
Proof.
  exists toy2, config_default, [48; 9], (toy_key 9), (fst xs_run), (snd xs_run), ex_after, ex_close,
    (snd (replay13 toy2 [Packet ex_after; Packet ex_close] (snd xs_run))),
    (fst (replay13 toy2 [Poll 2000] (snd (replay13 toy2 [Packet ex_after; Packet ex_close] (snd xs_run))))),
    (snd (replay13 toy2 [Poll 2000] (snd (replay13 toy2 [Packet ex_after; Packet ex_close] (snd xs_run))))), 3, 1, 0, [65].
  split; [exact xs_run_reach|].
  split. { left. assert (K : existsb (fun o => match o with OConnected => true | _ => false end) (outputs (fst xs_run)) = true) by (vm_compute; reflexivity).
           apply existsb_exists in K. destruct K as (o & K1 & K2). destruct o; try discriminate. exact K1. }
  split. { split; [vm_compute; reflexivity|]. eexists _, _. split; [vm_compute; reflexivity|]. do 3 (split; [vm_compute; reflexivity|]). vm_compute; reflexivity. }
  split. { split; [vm_compute; reflexivity|]. eexists _, _. split; [vm_compute; reflexivity|]. do 3 (split; [vm_compute; reflexivity|]). vm_compute; reflexivity. }
  split; [reflexivity|].
  split. { assert (Q : Conn12.quiet (removelast (fst (replay13 toy2 [Packet ex_after; Packet ex_close] (snd xs_run)))) = true) by (vm_compute; reflexivity).
           apply replay13_history in Q.
           replace (fst (replay13 toy2 [Packet ex_after; Packet ex_close] (snd xs_run))) with [(Packet ex_after, @Ok (option Output) None); (Packet ex_close, Ok None)] in Q by (vm_compute; reflexivity).
           exact Q. }
  split; [vm_compute; reflexivity|].
  split; [apply replay13_history; vm_compute; reflexivity|]. vm_compute; reflexivity.
Qed.
Print Assumptions C22_later_number13_refuted.

(** During the handshake an unprotected close_notify, from anyone, is taken for the
    peer's: CloseNotify is reported by an endpoint that holds no receive key at all. *)
Theorem C22_forged_close13_refuted : exists E cfg cert key s0 raw h s,
  start13 E cfg cert key s0 /\ (forall ep, recv_keys13 (end13_eng s0) ep = None) /\ g_hs_recv (end13_eng s0) = None /\
  raw = s_plain13 CT_ALERT 0 5 [1; 0] /\
  history13 E s0 h s /\ map fst h = [Packet raw; Poll 2000] /\ outputs h = [OCloseNotify].
Proof.
  set (s0 := new_server13 toy2 config_default [48; 9] (toy_key 9) 0).
  exists toy2, config_default, [48; 9], (toy_key 9), s0, (s_plain13 CT_ALERT 0 5 [1; 0]),
    (fst (replay13 toy2 [Packet (s_plain13 CT_ALERT 0 5 [1; 0]); Poll 2000] s0)),
    (snd (replay13 toy2 [Packet (s_plain13 CT_ALERT 0 5 [1; 0]); Poll 2000] s0)).
  split; [apply new_server13_start|]. split; [intros ep; unfold recv_keys13; destruct (ep =? 2); vm_compute; reflexivity|]. split; [vm_compute; reflexivity|]. split; [reflexivity|].
  split; [apply replay13_history; vm_compute; reflexivity|]. split; vm_compute; reflexivity.
Qed.
Print Assumptions C22_forged_close13_refuted.
