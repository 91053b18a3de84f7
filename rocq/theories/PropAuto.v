(** C44-C46, C54: the auto-sensing endpoint. *)
From Verif Require Import Prelude PreludeFacts Types Codec CodecProofs Codec12 Codec13 Record12 Record13 Env Config Context12 Monad MonadFacts Timer
  Engine12 Client12 Server12 Engine13 Client13 Server13 History12 History12Facts History13 Lift13 Conn12 Conn13 Auto AutoProofs.

(** ** Histories of an endpoint *)

(** The calls of [h] made on [d0], with the replies listed in [h], lead to [d]. *)
Inductive auto_history (E : Env) (d0 : Dtls) : list (Call * Reply) -> Dtls -> Prop :=
| auto_nil : auto_history E d0 [] d0
| auto_snoc : forall h d c r d',
    auto_history E d0 h d -> Forall (fun x => ~ panicked (snd x)) h ->
    dtls_call E c d = (r, d') -> auto_history E d0 (h ++ [(c, r)]) d'.
(** [Dtls::new_auto], and [set_active(true)] for the client. *)
Inductive auto_start (E : Env) (cfg : Config) (cert : bytes) (key : KeyInfo) : Dtls -> Prop :=
| auto_passive : forall now, auto_start E cfg cert key (dtls_new_auto E cfg cert key now)
| auto_client : forall now d, set_active E true (dtls_new_auto E cfg cert key now) = (Ok tt, d) ->
    auto_start E cfg cert key d.
Definition auto_reach (E : Env) (cfg : Config) (cert : bytes) (key : KeyInfo) (h : list (Call * Reply)) (d : Dtls) : Prop :=
  exists d0, auto_start E cfg cert key d0 /\ auto_history E d0 h d.

(** ** What an auto-sensing endpoint is *)

(** The datagrams given to the endpoint. *)
Definition packets (h : list (Call * Reply)) : list bytes :=
  flat_map (fun x => match fst x with Packet p => [p] | _ => [] end) h.
(** [l] is obtained from [m] by leaving elements out. *)
Inductive sublist {A} : list A -> list A -> Prop :=
| sub_nil : sublist [] []
| sub_skip : forall x l m, sublist l m -> sublist l (x :: m)
| sub_keep : forall x l m, sublist l m -> sublist (x :: l) (x :: m).

(** [executed h h']: [h'] is [h] without some writes and closes that were refused. *)
Inductive executed : list (Call * Reply) -> list (Call * Reply) -> Prop :=
| ex_nil : executed [] []
| ex_keep : forall x h h', executed h h' -> executed (h ++ [x]) (h' ++ [x])
| ex_write : forall d h h', executed h h' -> executed (h ++ [(Send d, Err EHandshakePending)]) h'
| ex_close : forall h h', executed h h' -> executed (h ++ [(Close, Err EHandshakePending)]) h'.

(** Still undecided, or an endpoint of one version with a history of its own: the
    calls made since the decision ([h2]), for a DTLS 1.2 server preceded by a
    [handle_timeout] and by datagrams the endpoint had received before. *)
Definition auto_is (E : Env) (cfg : Config) (cert : bytes) (key : KeyInfo) (h : list (Call * Reply)) (d : Dtls) : Prop :=
  match d with
  | INone => Exists (fun x => panicked (snd x)) h
  | IPend p => pe_cfg p = cfg /\ pe_cert p = cert /\ pe_key p = key /\ pe_wire p = hybrid_wire (pe_hybrid p)
  | I13 s => exists h1 h2 s0, h = h1 ++ h2 /\ start13 E cfg cert key s0 /\
      exists h3, executed h2 h3 /\ history13 E s0 h3 s
  | I12 (Cl c) => exists h1 h2 random fragment now c0, h = h1 ++ h2 /\
      (client12_from_hybrid E random fragment cfg (AuthCert cert key) now = (Ok tt, c0)
       \/ start12 E cfg AuthPsk (Cl c0)) /\
      history E (Cl c0) h2 (Cl c)
  | I12 (Sv s) => exists h1 h2 replayed auth, h = h1 ++ h2 /\ (auth = AuthPsk \/ auth = AuthCert cert key) /\
      reach12 E cfg auth (replayed ++ h2) (Sv s) /\
      (replayed = [] \/ exists now ps, map fst replayed = Tick now :: map Packet ps /\ sublist ps (packets h1)) /\
      (Forall (fun x => ~ panicked (snd x)) h -> Forall (fun x => ~ panicked (snd x)) replayed)
  end.

Lemma sub_refl {A} (l : list A) : sublist l l.
Proof. induction l; constructor; assumption. Qed.
Lemma sub_nil_l {A} (l : list A) : sublist [] l.
Proof. induction l; constructor; assumption. Qed.
Lemma sub_app {A} (a b c d : list A) : sublist a b -> sublist c d -> sublist (a ++ c) (b ++ d).
Proof. intros H K. induction H; cbn [app]; [exact K|apply sub_skip; exact IHsublist|apply sub_keep; exact IHsublist]. Qed.
Lemma sub_prefix {A} (l m k : list A) : sublist (l ++ k) m -> sublist l m.
Proof.
  intro H. remember (l ++ k) as a. revert l Heqa. induction H; intros l0 Heqa.
  - destruct l0; [constructor|discriminate].
  - apply sub_skip. apply IHsublist. exact Heqa.
  - destruct l0 as [|y l0]; [apply sub_nil_l|]. cbn [app] in Heqa. injection Heqa as -> ->. apply sub_keep. apply IHsublist. reflexivity.
Qed.
Lemma ex_np h h' : executed h h' -> Forall (fun x => ~ panicked (snd x)) h -> Forall (fun x => ~ panicked (snd x)) h'.
Proof.
  induction 1; intro K; [constructor|..]; apply Forall_app in K; destruct K as [K1 K2]; [apply Forall_app; split; [auto|exact K2]|auto..].
Qed.
Lemma packets_app a b : packets (a ++ b) = packets a ++ packets b.
Proof. apply flat_map_app. Qed.

(** The datagrams a server retains. *)
Definition HK (a b : Server13) : Prop := xs_hellos b = xs_hellos a \/ xs_hellos b = [].
Lemma HK_po : preorder HK.
Proof. split; [intro; left; reflexivity|]. intros a b c [H|H] [K|K]; unfold HK; rewrite ?K, ?H; auto. Qed.
Lemma HK_step E st : pres HK (y_step E st).
Proof.
  destruct st; unfold_y_step;
    presauto HK_po ltac:(first [apply (yf_eng HK); intros; left; reflexivity | apply pres_modify; intro; left; reflexivity]).
Qed.
Lemma HK_progress E n : pres HK (y_progress E n).
Proof. apply (yf_progress E HK HK_po); [intros; left; reflexivity|apply HK_step]. Qed.
Ltac hk := first [apply lf_public | apply HK_progress | apply (yf_eng HK); intros; left; reflexivity
  | apply (lf_event _ HK_po) | apply pres_modify; intro; first [left; reflexivity | right; reflexivity]].
Lemma HK_process E p : pres HK (y_process E p).
Proof. unfold y_process, y_make_progress. presauto HK_po ltac:(hk). Qed.
Lemma hellos_call E c s r s' : server13_call E c s = (r, s') ->
  HK s s' \/ exists p, c = Packet p /\ xs_hellos s' = xs_hellos s ++ [p].
Proof.
  intro H. destruct c as [p|cap|now|d|].
  - revert H. cbn [server13_call]. unfold no_output, server13_handle_packet.
    assert (P : forall b, HK b (snd (public (y_process E p) b))) by (apply (lf_public HK), HK_process).
    intro H. assert (HS : s' = snd ((let! s := get in
         if xs_auto s && sstate13_eqb (xs_state s) ST_AwaitClientHello
         then if MAX_RETAINED <=? len (xs_hellos s) then fail ETooManyFragments
              else modify (fun s => set_xs_hellos (xs_hellos s ++ [p]) s);;; public (y_process E p)
         else public (y_process E p)) s)).
    { revert H. unfold bind at 1. destruct ((let! s := get in _) s) as [[[]|e|n] b]; intros [= <- <-]; reflexivity. }
    clear H. subst s'. unfold bind at 1 3, get. cbv beta iota. destruct (xs_auto s && _).
    + destruct (MAX_RETAINED <=? _); [left; left; reflexivity|]. unfold bind, modify.
      destruct (P (set_xs_hellos (xs_hellos s ++ [p]) s)) as [K|K]; [right; eauto|left; right; exact K].
    + left. apply P.
  - left. revert s r s' H. assert (P : pres HK (server13_call E (Poll cap))).
    { cbn [server13_call]. unfold some_output, server13_poll_output. presauto HK_po ltac:(hk). }
    intros s r s' H. specialize (P s). rewrite H in P. exact P.
  - left. revert s r s' H. assert (P : pres HK (server13_call E (Tick now))).
    { cbn [server13_call]. unfold no_output, server13_handle_timeout, y_make_progress. presauto HK_po ltac:(hk). }
    intros s r s' H. specialize (P s). rewrite H in P. exact P.
  - left. revert s r s' H. assert (P : pres HK (server13_call E (Send d))).
    { cbn [server13_call]. unfold no_output, server13_send. presauto HK_po ltac:(hk). }
    intros s r s' H. specialize (P s). rewrite H in P. exact P.
  - left. revert s r s' H. assert (P : pres HK (server13_call E Close)).
    { cbn [server13_call]. unfold no_output, server13_close. presauto HK_po ltac:(hk). }
    intros s r s' H. specialize (P s). rewrite H in P. exact P.
Qed.

Lemma hellos_history E s0 h s : history13 E (XS s0) h (XS s) -> xs_hellos s0 = [] -> sublist (xs_hellos s) (packets h).
Proof.
  intros H H0. remember (XS s) as x. revert s Heqx. induction H as [|h x0 c r s' H IH NP C]; intros s Hs.
  - injection Hs as <-. rewrite H0. constructor.
  - subst s'. destruct x0 as [x0|x0]; cbn [end13_call] in C; [destruct (client13_call E c x0); discriminate|].
    destruct (server13_call E c x0) as [r0 s1] eqn:K. injection C as <- <-. specialize (IH _ eq_refl). rewrite packets_app.
    destruct (hellos_call _ _ _ _ _ K) as [[->| ->]|(p & -> & ->)].
    + rewrite <- (app_nil_r (xs_hellos x0)). apply sub_app; [exact IH|apply sub_nil_l].
    + apply sub_nil_l.
    + apply sub_app; [exact IH|]. cbn. apply sub_refl.
Qed.

Lemma history_np {E s0 h s c r s'} : history E s0 h s -> Forall (fun x => ~ panicked (snd x)) h -> end12_call E c s = (r, s') ->
  history E s0 (h ++ [(c, r)]) s'.
Proof. intros. eapply history_snoc; eassumption. Qed.

(** Replaying the retained datagrams is a history of the DTLS 1.2 server. *)
Lemma reply_no_output {S} (m : M S unit) s : no_output m s = (reply_unit (fst (m s)), snd (m s)).
Proof. unfold no_output, bind, reply_unit. destruct (m s) as [[[]|?|?] ?]; reflexivity. Qed.
Lemma unit_panicked r : panicked (reply_unit r) -> exists n, r = Panic n.
Proof. destruct r; cbn; intros []; eauto. Qed.
Lemma replay_reach E cfg auth : forall ps h s r s', reach12 E cfg auth h (Sv s) -> Forall (fun x => ~ panicked (snd x)) h ->
  replay_packets E ps s = (r, s') ->
  exists hs, reach12 E cfg auth (h ++ hs) (Sv s') /\ (exists ps', ps = ps' ++ skipn (length ps') ps /\ map fst hs = map Packet ps') /\
    (~ panicked (reply_unit r) -> Forall (fun x => ~ panicked (snd x)) hs).
Proof.
  induction ps as [|p ps IH]; intros h s r s' HR NP H; cbn [replay_packets] in H.
  - injection H as <- <-. exists []. rewrite app_nil_r. split; [exact HR|]. split; [exists []; split; reflexivity|constructor].
  - destruct (server12_handle_packet E p s) as [r0 s0] eqn:K.
    assert (C : end12_call E (Packet p) (Sv s) = (reply_unit r0, Sv s0)).
    { cbn [end12_call server12_call]. rewrite reply_no_output, K. reflexivity. }
    assert (R1 : reach12 E cfg auth (h ++ [(Packet p, reply_unit r0)]) (Sv s0)).
    { destruct HR as (x & H0 & HH). exists x. split; [exact H0|]. eapply history_snoc; eassumption. }
    assert (Stop : r0 = r -> s0 = s' -> exists hs : list (Call * Reply),
  reach12 E cfg auth (h ++ hs) (Sv s') /\ (exists ps' : list bytes, p :: ps = ps' ++ skipn (length ps') (p :: ps) /\ map fst hs = map Packet ps') /\
  (~ panicked (reply_unit r) -> Forall (fun x : Call * Reply => ~ panicked (snd x)) hs)).
    { intros -> ->. exists [(Packet p, reply_unit r)]. split; [exact R1|]. split; [exists [p]; split; reflexivity|]. intro Q. repeat constructor. exact Q. }
    destruct r0 as [[]|e|n]; [|injection H as <- <-; auto..].
    assert (NP1 : Forall (fun x => ~ panicked (snd x)) (h ++ [(Packet p, reply_unit (Ok tt))])).
    { apply Forall_app. split; [exact NP|]. repeat constructor. cbn. auto. }
    destruct (IH _ _ _ _ R1 NP1 H) as (hs & R2 & (ps' & P1 & P2) & NP2).
    exists ((Packet p, Ok None) :: hs). rewrite <- app_assoc in R2. split; [exact R2|]. split.
    + exists (p :: ps'). cbn [app length skipn map fst]. split; [f_equal; exact P1|f_equal; exact P2].
    + intro Q. constructor; [cbn; auto|auto].
Qed.

Lemma cfg_const13 E cfg cert key h s : reach13 E cfg cert key h s ->
  g_cfg (end13_eng s) = cfg /\ g_cert (end13_eng s) = cert /\ g_key (end13_eng s) = key.
Proof.
  revert h s. apply (eng13_inv E (fun e => g_cfg e = cfg /\ g_cert e = cert /\ g_key e = key) cfg cert key).
  - pose proof (preorder_inv (fun e => g_cfg e = cfg /\ g_cert e = cert /\ g_key e = key)) as PO.
    frame13_all ltac:(first [exact PO | intros v s H; exact H | intros s H; exact H | intros; assumption]).
  - intros e (b & n & ->). repeat split; reflexivity.
  - intros f. repeat split; reflexivity.
Qed.

Lemma ex_packets h h' : executed h h' -> packets h' = packets h.
Proof. induction 1; rewrite ?packets_app; [reflexivity|congruence|cbn; rewrite app_nil_r; exact IHexecuted..]. Qed.

Lemma start_auto E cfg cert key d : auto_start E cfg cert key d -> auto_is E cfg cert key [] d.
Proof.
  intros [now|now d' H].
  - unfold dtls_new_auto. destruct (psk_only E cfg); cbn [auto_is].
    + exists [], [], [], AuthPsk. split; [reflexivity|]. split; [left; reflexivity|]. split; [|split; [left; reflexivity|intro; constructor]].
      eexists. split; [apply start_server|]. apply history_nil.
    + exists [], []. eexists. split; [reflexivity|]. split; [apply start13_fresh, fresh13_server|]. exists []. split; [constructor|apply history13_nil].
  - revert H. unfold dtls_new_auto. destruct (psk_only E cfg); unfold set_active; cbn [is_active].
    + intros [= <-]. cbn [auto_is]. exists [], [], [], [], 0. eexists. split; [reflexivity|].
      split; [right; apply start_to_client, start_server|apply history_nil].
    + cbn [server13_new xs_auto xs_eng set_g_orc eng13_new g_cfg g_cert g_key xs_now]. unfold pending_new.
      destruct (hybrid_new _ _ _); [|discriminate..]. intros [= <-]. cbn [auto_is pe_cfg pe_cert pe_key pe_wire pe_hybrid]. repeat split; reflexivity.
Qed.

Definition np (h : list (Call * Reply)) : Prop := Forall (fun x => ~ panicked (snd x)) h.
Lemma np_r h h2 : np (h ++ h2) -> np h /\ np h2.
Proof. apply Forall_app. Qed.

Lemma step12 E cfg cert key h s c r s' : auto_is E cfg cert key h (I12 s) -> np h -> end12_call E c s = (r, s') ->
  auto_is E cfg cert key (h ++ [(c, r)]) (I12 s').
Proof.
  intros H NP C. destruct s as [x|x]; cbn [end12_call] in C.
  - destruct (client12_call E c x) as [r0 x'] eqn:K. injection C as <- <-. cbn [auto_is] in *.
    destruct H as (h1 & h2 & random & fragment & now & c0 & -> & H0 & HH). exists h1, (h2 ++ [(c, r0)]), random, fragment, now, c0.
    split; [symmetry; apply app_assoc|]. split; [exact H0|]. eapply history_snoc; [exact HH|apply (np_r _ _ NP)|]. cbn [end12_call]. rewrite K. reflexivity.
  - destruct (server12_call E c x) as [r0 x'] eqn:K. injection C as <- <-. cbn [auto_is] in *.
    destruct H as (h1 & h2 & re & auth & -> & Ha & (s0 & H0 & HH) & HP & HN). exists h1, (h2 ++ [(c, r0)]), re, auth.
    split; [symmetry; apply app_assoc|]. split; [exact Ha|]. split; [|split; [exact HP|]].
    + exists s0. split; [exact H0|]. rewrite app_assoc. eapply history_snoc; [exact HH| |cbn [end12_call]; rewrite K; reflexivity].
      apply Forall_app. split; [apply HN; exact NP|apply (np_r _ _ NP)].
    + intro Q. apply HN. apply np_r in Q. apply Q.
Qed.
Lemma step13 E cfg cert key h s c r s' : auto_is E cfg cert key h (I13 s) -> np h -> end13_call E c s = (r, s') ->
  auto_is E cfg cert key (h ++ [(c, r)]) (I13 s').
Proof.
  intros H NP C. cbn [auto_is] in *. destruct H as (h1 & h2 & s0 & -> & H0 & h3 & HE & HH). exists h1, (h2 ++ [(c, r)]), s0.
  split; [symmetry; apply app_assoc|]. split; [exact H0|]. exists (h3 ++ [(c, r)]). split; [constructor; exact HE|].
  eapply history13_snoc; [exact HH|apply (ex_np _ _ HE), (np_r _ _ NP)|exact C].
Qed.

Lemma server_start E s0 h s cfg cert key : start13 E cfg cert key s0 -> history13 E s0 h (XS s) -> exists y, s0 = XS y /\ xs_hellos y = [].
Proof.
  intros H HH. assert (K : exists y, s0 = XS y).
  { clear H. remember (XS s) as x. revert s Heqx. induction HH as [|h x c r s' HH IH NP C]; intros s Hs; [eauto|].
    subst s'. destruct x as [x|x]; cbn [end13_call] in C; [destruct (client13_call E c x); discriminate|]. eapply IH; reflexivity. }
  destruct K as [y ->]. exists y. split; [reflexivity|]. inversion H as [z F|]; subst. inversion F; subst; reflexivity.
Qed.

Lemma packet_call E cfg cert key h d p r d' : 0 < c_hs_timeout cfg -> auto_is E cfg cert key h d -> np h ->
  dtls_handle_packet E p d = (r, d') -> auto_is E cfg cert key (h ++ [(Packet p, reply_unit r)]) d'.
Proof.
  intros HT H NP C. destruct d as [[c|c]|[c|c]|pe|]; cbn [dtls_handle_packet] in C.
  - destruct (client12_handle_packet E p c) as [r0 c'] eqn:K. injection C as <- <-. eapply step12; [exact H|exact NP|].
    cbn [end12_call client12_call]. rewrite reply_no_output, K. reflexivity.
  - destruct (server12_handle_packet E p c) as [r0 c'] eqn:K. injection C as <- <-. eapply step12; [exact H|exact NP|].
    cbn [end12_call server12_call]. rewrite reply_no_output, K. reflexivity.
  - destruct (client13_handle_packet E p c) as [r0 c'] eqn:K. injection C as <- <-. eapply step13; [exact H|exact NP|].
    cbn [end13_call client13_call]. rewrite reply_no_output, K. reflexivity.
  - destruct (server13_handle_packet E p c) as [r0 c'] eqn:K.
    assert (CC : end13_call E (Packet p) (XS c) = (reply_unit r0, XS c')) by (cbn [end13_call server13_call]; rewrite reply_no_output, K; reflexivity).
    assert (S13 : auto_is E cfg cert key (h ++ [(Packet p, reply_unit r0)]) (I13 (XS c'))) by (eapply step13; [exact H|exact NP|exact CC]).
    assert (Plain : (r0, I13 (XS c')) = (r, d') -> auto_is E cfg cert key (h ++ [(Packet p, reply_unit r)]) d') by (intros [= <- <-]; exact S13).
    destruct r0 as [[]|e|n]; [exact (Plain C)| |exact (Plain C)]. destruct e; try exact (Plain C). destruct (xs_auto c); [|exact (Plain C)]. clear Plain.
    destruct S13 as (h1 & h2 & s0 & Hh & H0 & h3 & HE & HH).
    destruct (cfg_const13 E cfg cert key h3 (XS c')) as (Hc & Hce & Hk); [exists s0; split; assumption|]. cbn [end13_eng] in Hc, Hce, Hk.
    unfold pending_server in C. rewrite Hc in C.
    assert (FA : fallback_auth E c' = AuthPsk \/ fallback_auth E c' = AuthCert cert key).
    { unfold fallback_auth. rewrite Hce, Hk. destruct (_ && _); auto. }
    set (auth := fallback_auth E c') in *.
    assert (C' : (auth = AuthCert [] key /\ (Panic 130, INone) = (r, d')) \/
      match server12_handle_timeout E (xs_now c') (server12_new E (eng12_new E cfg auth) (xs_now c')) with
      | (Ok _, s12) => let '(r, s12') := replay_packets E (xs_hellos c') s12 in (r, I12 (Sv s12'))
      | (Err x, _) => (Err x, INone)
      | (Panic n, _) => (Panic n, INone)
      end = (r, d')).
    { destruct FA as [FA|FA]; rewrite FA in *; [right; exact C|]. destruct cert; [left; split; [reflexivity|exact C]|right; exact C]. }
    clear C. destruct C' as [[_ [= <- <-]]|C].
    { cbn [auto_is]. apply Exists_exists. eexists. split; [apply in_or_app; right; left; reflexivity|exact I]. }
    destruct (server12_first_ok E cfg auth (xs_now c') HT) as [s12 Hs]. rewrite Hs in C.
    destruct (replay_packets E (xs_hellos c') s12) as [r1 s12'] eqn:RP. injection C as <- <-.
    assert (R0 : reach12 E cfg auth [(Tick (xs_now c'), Ok None)] (Sv s12)).
    { eexists. split; [apply (start_server E cfg auth (xs_now c'))|]. apply (history_snoc E _ [] _ _ _ _ (history_nil _ _)); [constructor|].
      cbn [end12_call server12_call]. rewrite reply_no_output, Hs. reflexivity. }
    destruct (replay_reach E cfg auth _ _ _ _ _ R0 ltac:(repeat constructor; cbn; auto) RP) as (hs & R1 & (ps' & P1 & P2) & NP1).
    cbn [auto_is]. exists (h ++ [(Packet p, reply_unit r1)]), [], ((Tick (xs_now c'), Ok None) :: hs), auth.
    split; [symmetry; apply app_nil_r|]. split; [exact FA|]. split; [rewrite app_nil_r; exact R1|]. split.
    + right. exists (xs_now c'), ps'. split; [cbn [map fst]; f_equal; exact P2|].
      destruct (server_start E _ _ _ _ _ _ H0 HH) as (y & -> & Hy).
      pose proof (hellos_history E _ _ _ HH Hy) as HS. rewrite P1 in HS. apply sub_prefix in HS.
      replace (packets (h ++ [(Packet p, reply_unit r1)])) with (packets (h ++ [(Packet p, reply_unit (Err EFallback))])) by (rewrite !packets_app; reflexivity).
      rewrite Hh, packets_app, <- (ex_packets _ _ HE). apply (sub_app [] _ _ _); [apply sub_nil_l|exact HS].
    + intro Q. constructor; [cbn; auto|]. apply NP1. apply np_r in Q. destruct Q as [_ Q]. inversion Q; subst. assumption.
  - cbn [auto_is] in H. destruct H as (Hc & Hce & Hk & Hw). unfold pending_client in C. rewrite Hc, Hce, Hk in C.
    assert (Same : forall x, (x, IPend pe) = (r, d') -> auto_is E cfg cert key (h ++ [(Packet p, reply_unit r)]) d').
    { intros x [= <- <-]. cbn [auto_is]. auto. }
    destruct (server_hello_version p) as [[| |]|e|n]; [| |exact (Same _ C)..].
    + destruct (is_nil cert).
      { injection C as <- <-. cbn [auto_is]. apply Exists_exists. eexists. split; [apply in_or_app; right; left; reflexivity|exact I]. }
      destruct (hybrid12_ok E (hy_random (pe_hybrid pe)) (hy_fragment (pe_hybrid pe)) cfg (AuthCert cert key) (pe_now pe) HT) as [c Hx].
      rewrite Hx in C. destruct (client12_handle_packet E p c) as [r0 c'] eqn:K. injection C as <- <-.
      cbn [auto_is]. exists h, [(Packet p, reply_unit r0)], (hy_random (pe_hybrid pe)), (hy_fragment (pe_hybrid pe)), (pe_now pe), c.
      split; [reflexivity|]. split; [left; exact Hx|]. apply (history_snoc E _ [] _ _ _ _ (history_nil _ _)); [constructor|].
      cbn [end12_call client12_call]. rewrite reply_no_output, K. reflexivity.
    + destruct (hybrid13_ok E (hy_random (pe_hybrid pe)) (hy_transcript (pe_hybrid pe)) (hy_kx (pe_hybrid pe)) cfg cert key (pe_now pe) HT) as [c Hx].
      rewrite Hx in C. destruct (client13_handle_packet E p c) as [r0 c'] eqn:K. injection C as <- <-.
      cbn [auto_is]. exists h, [(Packet p, reply_unit r0)], (XC c).
      split; [reflexivity|]. split; [eapply start13_hybrid; exact Hx|]. exists [(Packet p, reply_unit r0)].
      split; [apply (ex_keep _ [] []); constructor|]. apply (history13_snoc E _ [] _ _ _ _ (history13_nil _ _)); [constructor|].
      cbn [end13_call client13_call]. rewrite reply_no_output, K. reflexivity.
  - exfalso. cbn [auto_is] in H. apply Exists_exists in H. destruct H as (x & Hi & Hx). unfold np in NP. rewrite Forall_forall in NP. exact (NP x Hi Hx).
Qed.

Lemma auto_step E cfg cert key h d c r d' : 0 < c_hs_timeout cfg -> auto_is E cfg cert key h d -> np h ->
  dtls_call E c d = (r, d') -> auto_is E cfg cert key (h ++ [(c, r)]) d'.
Proof.
  intros HT H NP C. destruct c as [p|cap|now|x|].
  - cbn [dtls_call] in C. destruct (dtls_handle_packet E p d) as [r0 d0] eqn:K. injection C as <- <-. eapply packet_call; eassumption.
  - destruct d as [s|s|pe|]; cbn [dtls_call] in C.
    + destruct (end12_call E (Poll cap) s) as [r0 s'] eqn:K. injection C as <- <-. eapply step12; eassumption.
    + destruct (end13_call E (Poll cap) s) as [r0 s'] eqn:K. injection C as <- <-. eapply step13; eassumption.
    + destruct (pending_poll cap pe) as [o pe'] eqn:K. injection C as <- <-. revert K. unfold pending_poll.
      destruct (pe_send pe); [destruct (cap <? _)|]; intros [= <- <-]; exact H.
    + exfalso. cbn [auto_is] in H. apply Exists_exists in H. destruct H as (x & Hi & Hx). unfold np in NP. rewrite Forall_forall in NP. exact (NP x Hi Hx).
  - destruct d as [s|s|pe|]; cbn [dtls_call] in C.
    + destruct (end12_call E (Tick now) s) as [r0 s'] eqn:K. injection C as <- <-. eapply step12; eassumption.
    + destruct (end13_call E (Tick now) s) as [r0 s'] eqn:K. injection C as <- <-. eapply step13; eassumption.
    + destruct (pending_timeout now pe) as [o pe'] eqn:K. injection C as <- <-. revert K. unfold pending_timeout.
      cbn [pe_at pe_cfg pe_count]. destruct (pe_at pe) as [dl|]; [destruct (dl <=? now); [destruct (_ <=? _)|]|]; intros [= <- <-]; exact H.
    + exfalso. cbn [auto_is] in H. apply Exists_exists in H. destruct H as (x & Hi & Hx). unfold np in NP. rewrite Forall_forall in NP. exact (NP x Hi Hx).
  - destruct d as [s|s|pe|]; cbn [dtls_call is_pending] in C.
    + destruct (end12_call E (Send x) s) as [r0 s'] eqn:K. injection C as <- <-. eapply step12; eassumption.
    + assert (C' : (Err EHandshakePending, I13 s) = (r, d') \/ (let '(r, s') := end13_call E (Send x) s in (r, I13 s')) = (r, d')).
      { destruct s as [s|s]; [right; exact C|]. destruct (xs_auto s); [left|right]; exact C. }
      clear C. destruct C' as [[= <- <-]|C].
      * cbn [auto_is] in *. destruct H as (h1 & h2 & s0 & -> & H0 & h3 & HE & HH). exists h1. eexists. exists s0.
        split; [rewrite <- app_assoc; reflexivity|]. split; [exact H0|]. exists h3. split; [apply ex_write; exact HE|exact HH].
      * destruct (end13_call E (Send x) s) as [r0 s'] eqn:K. injection C as <- <-. eapply step13; eassumption.
    + injection C as <- <-. exact H.
    + exfalso. cbn [auto_is] in H. apply Exists_exists in H. destruct H as (y & Hi & Hx). unfold np in NP. rewrite Forall_forall in NP. exact (NP y Hi Hx).
  - destruct d as [s|s|pe|]; cbn [dtls_call is_pending] in C.
    + destruct (end12_call E Close s) as [r0 s'] eqn:K. injection C as <- <-. eapply step12; eassumption.
    + assert (C' : (Err EHandshakePending, I13 s) = (r, d') \/ (let '(r, s') := end13_call E Close s in (r, I13 s')) = (r, d')).
      { destruct s as [s|s]; [right; exact C|]. destruct (xs_auto s); [left|right]; exact C. }
      clear C. destruct C' as [[= <- <-]|C].
      * cbn [auto_is] in *. destruct H as (h1 & h2 & s0 & -> & H0 & h3 & HE & HH). exists h1. eexists. exists s0.
        split; [rewrite <- app_assoc; reflexivity|]. split; [exact H0|]. exists h3. split; [apply ex_close; exact HE|exact HH].
      * destruct (end13_call E Close s) as [r0 s'] eqn:K. injection C as <- <-. eapply step13; eassumption.
    + injection C as <- <-. exact H.
    + exfalso. cbn [auto_is] in H. apply Exists_exists in H. destruct H as (y & Hi & Hx). unfold np in NP. rewrite Forall_forall in NP. exact (NP y Hi Hx).
Qed.

(** C54.  An auto-sensing endpoint is at every moment either still undecided (a client
    resending one and the same hello) or an endpoint of one version with a history of
    its own, so that everything proved about the endpoints of that version holds of
    it.  A server that falls back to DTLS 1.2 processes only datagrams it received, in
    their order. *)
Theorem C54_auto_endpoint : forall E cfg cert key h d, 0 < c_hs_timeout cfg -> auto_reach E cfg cert key h d ->
  auto_is E cfg cert key h d.
Proof.
  intros E cfg cert key h d HT (d0 & H0 & H). induction H as [|h d c r d' H IH NP C]; [apply start_auto; exact H0|].
  eapply auto_step; eassumption.
Qed.
Print Assumptions C54_auto_endpoint.

(** ** C44 *)

(** While the version is undecided, writing and closing are refused and the endpoint
    is left exactly as it was. *)
Theorem C44_pending_refused : forall E cfg cert key h d, 0 < c_hs_timeout cfg -> auto_reach E cfg cert key h d ->
  Forall (fun x => ~ panicked (snd x)) h -> protocol_version d = None ->
  (forall x, dtls_call E (Send x) d = (Err EHandshakePending, d)) /\ dtls_call E Close d = (Err EHandshakePending, d).
Proof.
  intros E cfg cert key h d HT H NP V. pose proof (C54_auto_endpoint _ _ _ _ _ _ HT H) as A.
  destruct d as [s|[s|s]|pe|]; [discriminate V|discriminate V| | |].
  - cbn [protocol_version] in V. cbn [dtls_call is_pending]. destruct (xs_auto s); [split; reflexivity|discriminate V].
  - split; reflexivity.
  - exfalso. cbn [auto_is] in A. apply Exists_exists in A. destruct A as (y & Hi & Hx). rewrite Forall_forall in NP. exact (NP y Hi Hx).
Qed.
Print Assumptions C44_pending_refused.

(** ** C45 *)

(** What the client becomes, as seen from outside: a client of the version. *)
Definition became (v : N) (d : Dtls) : Prop := protocol_version d = Some v /\ is_active d = true.

Lemma becomes12 E cfg cert key h p pe : auto_is E cfg cert key h (IPend pe) -> 0 < c_hs_timeout cfg -> cert <> [] ->
  server_hello_version p = Ok DV12 -> became V_DTLS12 (snd (dtls_call E (Packet p) (IPend pe))).
Proof.
  intros (Hc & Hce & Hk & _) HT HN V. cbn [dtls_call dtls_handle_packet]. unfold pending_client. rewrite V, Hc, Hce, Hk.
  destruct cert as [|b cert]; [congruence|]. cbn [is_nil].
  destruct (hybrid12_ok E (hy_random (pe_hybrid pe)) (hy_fragment (pe_hybrid pe)) cfg (AuthCert (b :: cert) key) (pe_now pe) HT) as [c ->].
  destruct (client12_handle_packet E p c). split; reflexivity.
Qed.
Lemma becomes13 E cfg cert key h p pe : auto_is E cfg cert key h (IPend pe) -> 0 < c_hs_timeout cfg ->
  server_hello_version p = Ok DV13 -> became V_DTLS13 (snd (dtls_call E (Packet p) (IPend pe))).
Proof.
  intros (Hc & Hce & Hk & _) HT V. cbn [dtls_call dtls_handle_packet]. unfold pending_client. rewrite V, Hc, Hce, Hk.
  destruct (hybrid13_ok E (hy_random (pe_hybrid pe)) (hy_transcript (pe_hybrid pe)) (hy_kx (pe_hybrid pe)) cfg cert key (pe_now pe) HT) as [c ->].
  destruct (client13_handle_packet E p c). split; reflexivity.
Qed.

(** The version a list of ServerHello extensions selects (RFC 8446 4.2.1): DTLS 1.3
    if the [supported_versions] extension names it, otherwise DTLS 1.2. *)
Definition selects13 (es : list (N * bytes)) : Prop := exists d, find_ext X_VERSIONS es = Some (be 2 V_DTLS13 ++ d).

Lemma selected13 es : Forall ext_ok es -> selects13 es -> selected es = DV13.
Proof. intros _ [d H]. unfold selected. rewrite H. reflexivity. Qed.
Lemma selected12 es : Forall (fun e => Forall (fun b => b < 256) (snd e)) es -> ~ selects13 es -> selected es = DV12.
Proof.
  intros HB H. unfold selected. destruct (find_ext X_VERSIONS es) as [[|a [|b d]]|] eqn:F; try reflexivity.
  destruct (unbe [a; b] =? V_DTLS13) eqn:K; [|reflexivity]. exfalso. apply H. exists d. rewrite F.
  assert (B : a < 256 /\ b < 256).
  { revert F HB. clear. induction es as [|[t x] es IH]; [discriminate|]. cbn [find_ext]. destruct (_ =? _).
    - intros [= ->] HB. inversion HB as [|? ? B _]; subst. cbn [snd] in B. inversion B as [|? ? B1 B2]; subst. inversion B2; subst. auto.
    - intros F HB. inversion HB; subst. auto. }
  apply N.eqb_eq in K. unfold unbe in K. cbn [fold_left] in K. change V_DTLS13 with 65276 in K.
  assert (a = 254 /\ b = 252) as [-> ->] by lia. reflexivity.
Qed.

(** A ServerHello, alone or followed by anything, in one record: the pending client
    becomes a DTLS 1.3 client exactly when the extensions select DTLS 1.3, and
    otherwise a DTLS 1.2 client. *)
Theorem C45_server_hello : forall E cfg cert key h pe rechead head more rest version random sid suite comp es,
  let body := server_hello_body version random sid suite comp es in
  let p := hs_datagram MT_ServerHello rechead head body more rest in
  auto_reach E cfg cert key h (IPend pe) -> 0 < c_hs_timeout cfg -> cert <> [] ->
  length rechead = 10%nat -> length head = 8%nat -> length version = 2%nat -> length random = 32%nat ->
  length suite = 2%nat -> len sid < 256 -> len (s_exts es) < 65536 -> 12 + len body + len more < 65536 ->
  Forall (fun e => fst e < 65536 /\ len (snd e) < 65536 /\ Forall (fun b => b < 256) (snd e)) es ->
  (selects13 es -> became V_DTLS13 (snd (dtls_call E (Packet p) (IPend pe)))) /\
  (~ selects13 es -> became V_DTLS12 (snd (dtls_call E (Packet p) (IPend pe)))).
Proof.
  intros E cfg cert key h pe rechead head more rest version random sid suite comp es body p HR HT HC Hrh Hh Hv Hr Hs Hsi Hx Hl He.
  pose proof (C54_auto_endpoint _ _ _ _ _ _ HT HR) as A.
  assert (E1 : Forall ext_ok es) by (eapply Forall_impl; [|exact He]; intros e (H1 & H2 & _); split; assumption).
  assert (V : server_hello_version p = Ok (selected es)).
  { unfold server_hello_version. set (r := [MT_ServerHello] ++ head ++ be 3 (len body) ++ body ++ more).
    assert (Lr : len r = 12 + len body + len more).
    { unfold r, len. rewrite !app_length, be_length, Hh. cbn [length]. lia. }
    destruct (datagram_record CT_HS rechead p r rest Hrh ltac:(lia) eq_refl) as (-> & -> & ->). cbn [N.eqb CT_HS negb].
    destruct (datagram_message MT_ServerHello head body more r Hh ltac:(change (2 ^ 24) with 16777216; lia) eq_refl) as (-> & -> & ->).
    change (MT_ServerHello =? MT_HelloVerifyRequest) with false. change (MT_ServerHello =? MT_ServerHello) with true. cbn [negb].
    apply hello_version_body; assumption. }
  split; intro S.
  - rewrite (selected13 _ E1 S) in V. eapply becomes13; eassumption.
  - rewrite selected12 in V; [eapply becomes12; eassumption| |exact S].
    eapply Forall_impl; [|exact He]. intros e (_ & _ & H). exact H.
Qed.
Print Assumptions C45_server_hello.

(** A HelloVerifyRequest makes it a DTLS 1.2 client. *)
Theorem C45_hello_verify_request : forall E cfg cert key h pe rechead head body more rest,
  let p := hs_datagram MT_HelloVerifyRequest rechead head body more rest in
  auto_reach E cfg cert key h (IPend pe) -> 0 < c_hs_timeout cfg -> cert <> [] ->
  length rechead = 10%nat -> length head = 8%nat -> 12 + len body + len more < 65536 ->
  became V_DTLS12 (snd (dtls_call E (Packet p) (IPend pe))).
Proof.
  intros E cfg cert key h pe rechead head body more rest p HR HT HC Hrh Hh Hl.
  pose proof (C54_auto_endpoint _ _ _ _ _ _ HT HR) as A. eapply becomes12; [exact A|exact HT|exact HC|].
  unfold server_hello_version. set (r := [MT_HelloVerifyRequest] ++ head ++ be 3 (len body) ++ body ++ more).
  assert (Lr : len r = 12 + len body + len more).
  { unfold r, len. rewrite !app_length, be_length, Hh. cbn [length]. lia. }
  destruct (datagram_record CT_HS rechead p r rest Hrh ltac:(lia) eq_refl) as (-> & -> & ->). cbn [N.eqb CT_HS negb].
  destruct (datagram_message MT_HelloVerifyRequest head body more r Hh ltac:(change (2 ^ 24) with 16777216; lia) eq_refl) as (-> & -> & _).
  reflexivity.
Qed.
Print Assumptions C45_hello_verify_request.

(** Only a handshake record of type ServerHello or HelloVerifyRequest decides; any
    other datagram is refused and the endpoint is left exactly as it was. *)
Theorem C45_other_datagrams : forall E pe p,
  (forall rechead r rest, p = [CT_HS] ++ rechead ++ be 2 (len r) ++ r ++ rest -> length rechead = 10%nat -> (12 <= length r)%nat ->
     hd 0 r <> MT_ServerHello /\ hd 0 r <> MT_HelloVerifyRequest) ->
  Forall (fun b => b < 256) p ->
  dtls_call E (Packet p) (IPend pe) = (Err EUnexpected, IPend pe).
Proof.
  intros E pe p H HB. cbn [dtls_call dtls_handle_packet]. unfold pending_client.
  enough (V : server_hello_version p = Ok DVUnknown) by (rewrite V; reflexivity).
  unfold server_hello_version. destruct (Nat.ltb _ 13) eqn:L; [reflexivity|]. apply Nat.ltb_ge in L.
  destruct (hd 0 p =? CT_HS) eqn:T; [|reflexivity]. cbn [negb]. destruct (slice 13 _ p) as [r|] eqn:S; [|reflexivity].
  destruct (Nat.ltb (length r) 12) eqn:L2; [reflexivity|]. apply Nat.ltb_ge in L2.
  unfold slice in S. destruct (Nat.leb _ _) eqn:L3; [|discriminate]. apply Nat.leb_le in L3.
  set (n := u16_at 11 p) in *. assert (Sr : r = firstn (N.to_nat n) (skipn 13 p)) by congruence. clear S. assert (Hn : len r = n).
  { subst r. unfold len. rewrite firstn_length, skipn_length. lia. }
  destruct (H (firstn 10 (skipn 1 p)) r (skipn (N.to_nat n) (skipn 13 p))) as [H1 H2].
  - apply N.eqb_eq in T. rewrite Hn, Sr, firstn_skipn. clear - L HB T.
    do 13 (destruct p as [|? p]; [cbn in L; lia|]). cbn [hd] in T. subst. unfold n, u16_at. cbn [skipn firstn app].
    do 13 (match goal with HB : Forall _ (_ :: _) |- _ => inversion HB; clear HB; subst end).
    repeat (apply f_equal). cbn [app]. match goal with |- ?a :: ?b :: ?l = be 2 (unbe [?a; ?b]) ++ ?l => change (a :: b :: l) with ([a; b] ++ l); f_equal end.
    symmetry. match goal with |- be 2 (unbe ?l) = _ => apply (be_unbe l) end. repeat constructor; assumption.
  - destruct p as [|x p]; [cbn in L; lia|]. cbn [skipn]. rewrite firstn_length. cbn [length] in L. lia.
  - exact L2.
  - destruct (hd 0 r =? MT_HelloVerifyRequest) eqn:K; [apply N.eqb_eq in K; congruence|].
    destruct (hd 0 r =? MT_ServerHello) eqn:K2; [apply N.eqb_eq in K2; congruence|]. reflexivity.
Qed.
Print Assumptions C45_other_datagrams.

(** ** C46 *)

(** The times of the [handle_timeout] calls and the datagrams sent. *)
Definition ticks (h : list (Call * Reply)) : list N := flat_map (fun x => match fst x with Tick t => [t] | _ => [] end) h.
Definition sent (h : list (Call * Reply)) : list bytes := flat_map (fun o => match o with OPacket p => [p] | _ => [] end) (outputs h).
(** The deadline after the first call, at [t0], and retransmissions due at the times
    [fires] (latest first): one second, then 2, 4, ... 32 seconds. *)
Definition deadline (t0 : N) (fires : list N) : N :=
  match fires with [] => t0 + sec | f :: _ => f + 2 ^ N.min (len fires) 5 * sec end.
(** Each retransmission came due at or after the deadline that preceded it. *)
Fixpoint paced (t0 : N) (fires : list N) : Prop :=
  match fires with [] => True | f :: r => deadline t0 r <= f /\ paced t0 r end.

Definition on_schedule (h : list (Call * Reply)) (pe : Pending) (fires : list N) : Prop :=
  pe_count pe = len fires /\ pe_at pe = match ticks h with [] => None | t0 :: _ => Some (deadline t0 fires) end /\
  match ticks h with [] => fires = [] | t0 :: _ => paced t0 fires end /\ sublist (rev fires) (ticks h) /\
  len fires <= c_retries (pe_cfg pe) /\ Forall (fun p => p = pe_wire pe) (sent h) /\
  len (sent h) + (if pe_send pe then 1 else 0) <= 1 + len fires /\ (fires = [] -> sent h = [] -> pe_send pe = true).

Lemma ticks_app a b : ticks (a ++ b) = ticks a ++ ticks b.
Proof. apply flat_map_app. Qed.
Lemma sent_app a b : sent (a ++ b) = sent a ++ sent b.
Proof. unfold sent, outputs. rewrite !flat_map_app. reflexivity. Qed.

Lemma schedule_other h pe fires x : on_schedule h pe fires -> ticks [x] = [] -> sent [x] = [] -> on_schedule (h ++ [x]) pe fires.
Proof. intros H T S. unfold on_schedule. rewrite ticks_app, sent_app, T, S, !app_nil_r. exact H. Qed.

Lemma pend_eq (r r' : Reply) a b : (r, IPend a) = (r', IPend b) -> r = r' /\ a = b.
Proof. intro H. inversion H. auto. Qed.
Lemma schedule_step E h c r pe d pe' fires : on_schedule h pe fires -> dtls_call E c (IPend pe) = (r, d) -> d = IPend pe' ->
  pe_cfg pe' = pe_cfg pe /\ exists fires', on_schedule (h ++ [(c, r)]) pe' fires'.
Proof.
  intros H C ->. destruct c as [p|cap|now|x|]; cbn [dtls_call] in C.
  - destruct (dtls_handle_packet E p (IPend pe)) as [r0 d0] eqn:K. injection C as <- ->. cbn [dtls_handle_packet] in K.
    assert (S : pe' = pe).
    { revert K. unfold pending_client. destruct (server_hello_version p) as [[| |]|e|n]; try (intros [= _ <-]; reflexivity).
      - destruct (is_nil _); [discriminate|]. destruct (client12_from_hybrid _ _ _ _ _ _) as [[]]; [|discriminate..].
        destruct (client12_handle_packet _ _ _). discriminate.
      - destruct (client13_from_hybrid _ _ _ _ _ _ _) as [[]]; [|discriminate..].
        destruct (client13_handle_packet _ _ _). discriminate. }
    subst pe'. split; [reflexivity|]. exists fires. apply schedule_other; [exact H|reflexivity|]. destruct r0; reflexivity.
  - revert C. unfold pending_poll. destruct (pe_send pe) eqn:S; [destruct (cap <? _)|]; intros [= <- <-].
    + split; [reflexivity|]. exists fires. apply schedule_other; [exact H|reflexivity..].
    + split; [reflexivity|]. exists fires. destruct H as (H1 & H2 & H3 & H4 & H5 & H6 & H7 & H8). rewrite S in H7.
      unfold on_schedule. rewrite ticks_app, sent_app. cbn [ticks flat_map fst]. rewrite app_nil_r.
      cbn [pe_count pe_at pe_cfg pe_wire pe_send]. repeat (split; [assumption|]). split; [apply Forall_app; split; [exact H6|]; repeat constructor|].
      split; [|intros _ K; apply app_eq_nil in K; destruct K; discriminate]. rewrite len_app. cbn [sent outputs flat_map snd app len length]. unfold len at 2. cbn. lia.
    + split; [reflexivity|]. exists fires. apply schedule_other; [exact H|reflexivity..].
  - destruct H as (H1 & H2 & H3 & H4 & H5 & H6 & H7 & H8). revert C. unfold pending_timeout. cbn [pe_at pe_cfg pe_count pe_send pe_wire]. rewrite H2.
    assert (TA : ticks (h ++ [(Tick now, r)]) = ticks h ++ [now]) by (rewrite ticks_app; reflexivity).
    assert (SA : (exists x, r = reply_unit x) -> sent (h ++ [(Tick now, r)]) = sent h).
    { intros [[]  ->]; rewrite sent_app; cbn; apply app_nil_r. }
    destruct (ticks h) as [|t0 ts] eqn:Ht.
    + subst fires. intros [= <- <-]. split; [reflexivity|]. exists []. unfold on_schedule. rewrite TA, SA by (exists (Ok tt); reflexivity).
      cbn [pe_count pe_at pe_cfg pe_wire pe_send app paced deadline rev]. repeat (split; [assumption || reflexivity || exact I|]).
      split; [apply sub_nil_l|]. auto.
    + assert (Skip : forall x, r = reply_unit x -> on_schedule (h ++ [(Tick now, r)])
        (mkPending (pe_hybrid pe) (pe_cfg pe) (pe_cert pe) (pe_key pe) (pe_wire pe) (pe_send pe) now (Some (deadline t0 fires)) (pe_count pe)) fires).
      { intros x Hx. unfold on_schedule. rewrite TA, SA by (exists x; exact Hx). cbn [pe_count pe_at pe_cfg pe_wire pe_send app].
        repeat (split; [assumption || reflexivity|]). split; [rewrite <- (app_nil_r (rev fires)); apply (sub_app _ (t0 :: ts)); [exact H4|apply sub_nil_l]|]. auto. }
      destruct (deadline t0 fires <=? now) eqn:L; [destruct (c_retries _ <=? _) eqn:LR|]; intro K; apply pend_eq in K; destruct K as [<- <-].
      * split; [reflexivity|]. exists fires. eapply (Skip (Err _)). reflexivity.
      * split; [reflexivity|]. exists (now :: fires). unfold on_schedule. rewrite TA, SA by (exists (Ok tt); reflexivity).
        cbn [pe_count pe_at pe_cfg pe_wire pe_send app paced rev]. apply N.leb_le in L. apply N.leb_gt in LR. rewrite H1 in *.
        split; [rewrite len_cons; lia|]. split; [unfold deadline; rewrite len_cons, N.shiftl_1_l; rewrite N.add_comm with (n := len fires); reflexivity|].
        split; [split; assumption|]. split; [apply (sub_app _ (t0 :: ts)); [exact H4|apply sub_refl]|].
        split; [rewrite len_cons; lia|]. split; [exact H6|]. split; [|discriminate]. rewrite len_cons. destruct (pe_send pe); lia.
      * split; [reflexivity|]. exists fires. eapply (Skip (Ok tt)). reflexivity.
  - injection C as <- <-. split; [reflexivity|]. exists fires. apply schedule_other; [exact H|reflexivity..].
  - injection C as <- <-. split; [reflexivity|]. exists fires. apply schedule_other; [exact H|reflexivity..].
Qed.

Lemma schedule_reach E cfg cert key h d : auto_reach E cfg cert key h d ->
  match d with IPend pe => pe_cfg pe = cfg /\ exists fires, on_schedule h pe fires | _ => True end.
Proof.
  intros (d0 & H0 & H). induction H as [|h d c r d' H IH NP C].
  - destruct H0 as [now|now d H].
    + unfold dtls_new_auto. destruct (psk_only E cfg); exact I.
    + revert H. unfold dtls_new_auto. destruct (psk_only E cfg); unfold set_active; cbn [is_active].
      * intros [= <-]. exact I.
      * cbn [server13_new xs_auto xs_eng set_g_orc eng13_new g_cfg g_cert g_key xs_now]. unfold pending_new.
        destruct (hybrid_new _ _ _); [|discriminate..]. intro K. assert (K' := f_equal snd K). cbn [snd] in K'. subst d.
        split; [reflexivity|]. exists []. unfold on_schedule. cbn [pe_count pe_at pe_send pe_wire pe_cfg ticks sent outputs flat_map rev].
        split; [reflexivity|]. split; [reflexivity|]. split; [reflexivity|]. split; [apply sub_nil|]. split; [unfold len; apply N.le_0_l|].
        split; [constructor|]. split; [apply N.leb_le; reflexivity|reflexivity].
  - destruct d' as [s|s|pe'|]; try exact I. destruct d as [s|[s|s]|pe|].
    + exfalso. destruct c; cbn [dtls_call is_pending] in C.
      * destruct s as [s|s]; cbn [dtls_handle_packet] in C; [destruct (client12_handle_packet _ _ _)|destruct (server12_handle_packet _ _ _)]; discriminate.
      * destruct (end12_call E _ s); discriminate.
      * destruct (end12_call E _ s); discriminate.
      * destruct (end12_call E _ s); discriminate.
      * destruct (end12_call E _ s); discriminate.
    + exfalso. destruct c; cbn [dtls_call is_pending] in C.
      * cbn [dtls_handle_packet] in C; destruct (client13_handle_packet _ _ _); discriminate.
      * destruct (end13_call E _ _); discriminate.
      * destruct (end13_call E _ _); discriminate.
      * destruct (end13_call E _ _); discriminate.
      * destruct (end13_call E _ _); discriminate.
    + exfalso. destruct c; cbn [dtls_call is_pending] in C.
      * cbn [dtls_handle_packet] in C. destruct (server13_handle_packet _ _ _) as [r0 s0].
        assert (K : (r0, I13 (XS s0)) = (r0, IPend pe') \/ snd (pending_server E s0) = IPend pe').
        { destruct r0 as [[]|e|n]; [injection C; discriminate| |injection C; discriminate]. destruct e; try (injection C; discriminate).
          destruct (xs_auto s); [|injection C; discriminate]. right. destruct (pending_server E s0). injection C as _ ->. reflexivity. }
        destruct K as [K|K]; [discriminate|]. revert K. unfold pending_server. destruct (fallback_auth E s0) as [[|? ?] ?|]; [discriminate|..].
        all: destruct (server12_handle_timeout _ _ _) as [[]]; [|discriminate..]; destruct (replay_packets _ _ _); discriminate.
      * destruct (end13_call E _ _); discriminate.
      * destruct (end13_call E _ _); discriminate.
      * destruct (xs_auto s); [discriminate|]. destruct (end13_call E _ _); discriminate.
      * destruct (xs_auto s); [discriminate|]. destruct (end13_call E _ _); discriminate.
    + destruct IH as [Hc [fires HF]]. destruct (schedule_step E h c r pe (IPend pe') pe' fires HF C eq_refl) as [K1 K2].
      rewrite K1. split; assumption.
    + exfalso. destruct c; cbn in C; discriminate.
Qed.

(** Before the version is known the client has one datagram, [wire], to send.  With
    [fires] the retransmissions that came due so far, it has been sent at most
    [1 + len fires] times; they are at most [flight_retries], and each came due by a
    [handle_timeout] at or after the deadline: one second after the first call, then
    2, 4, ... 32 seconds after the one before.  At a deadline the datagram is offered
    again, or the call fails when no retransmission is left. *)
Theorem C46_hello_schedule : forall E cfg cert key h pe, auto_reach E cfg cert key h (IPend pe) ->
  exists wire fires,
    Forall (fun p => p = wire) (sent h) /\ len (sent h) <= 1 + len fires /\ len fires <= c_retries cfg /\
    sublist (rev fires) (ticks h) /\ (ticks h = [] -> fires = []) /\
    (forall t0 ts t, ticks h = t0 :: ts -> paced t0 fires /\
      let '(r, d) := dtls_call E (Tick t) (IPend pe) in
      (t < deadline t0 fires -> r = Ok None /\ forall cap, fst (dtls_call E (Poll cap) d) = fst (dtls_call E (Poll cap) (IPend pe))) /\
      (deadline t0 fires <= t -> len fires < c_retries cfg ->
         r = Ok None /\ forall cap, len wire <= cap -> fst (dtls_call E (Poll cap) d) = Ok (Some (OPacket wire))) /\
      (deadline t0 fires <= t -> c_retries cfg <= len fires -> r = Err (ETimeout TO_Hybrid))).
Proof.
  intros E cfg cert key h pe HR. destruct (schedule_reach _ _ _ _ _ _ HR) as [Hc [fires (H1 & H2 & H3 & H4 & H5 & H6 & H7 & H8)]].
  exists (pe_wire pe), fires. split; [exact H6|]. split; [destruct (pe_send pe); lia|]. split; [rewrite <- Hc; exact H5|].
  split; [exact H4|]. split; [intro K; rewrite K in H3; exact H3|]. intros t0 ts t Ht. rewrite Ht in *. split; [exact H3|].
  cbn [dtls_call]. unfold pending_timeout. cbn [pe_at pe_cfg pe_count pe_send pe_wire]. rewrite H2, H1, Hc.
  destruct (N.leb_spec (deadline t0 fires) t) as [L|L]; [destruct (N.leb_spec (c_retries cfg) (len fires)) as [K|K]|].
  - split; [lia|]. split; [lia|]. reflexivity.
  - split; [lia|]. split; [|lia]. intros _ _. split; [reflexivity|]. intros cap Hcap. cbn [dtls_call]. unfold pending_poll. cbn [pe_send pe_wire].
    replace (cap <? len (pe_wire pe)) with false by (symmetry; apply N.ltb_ge; exact Hcap). reflexivity.
  - split; [|split; lia]. intros _. split; [reflexivity|]. intro cap. cbn [dtls_call]. unfold pending_poll. cbn [pe_send pe_wire pe_at]. rewrite H2.
    destruct (pe_send pe); [destruct (cap <? _); reflexivity|reflexivity].
Qed.
Print Assumptions C46_hello_schedule.

(** Polling: the datagram is offered from the start; a buffer that is too small is
    reported with the size needed and changes nothing, so the datagram is not lost;
    with nothing to send the deadline is announced. *)
Theorem C46_hello_poll : forall E cfg cert key h pe, auto_reach E cfg cert key h (IPend pe) ->
  exists wire fires, (forall t0 ts, ticks h = t0 :: ts -> paced t0 fires) /\
  (sent h = [] -> fires = [] -> forall cap, len wire <= cap -> fst (dtls_call E (Poll cap) (IPend pe)) = Ok (Some (OPacket wire))) /\
  forall cap,
    (exists d, dtls_call E (Poll cap) (IPend pe) = (Ok (Some (OPacket wire)), d) /\ len wire <= cap) \/
    (dtls_call E (Poll cap) (IPend pe) = (Ok (Some (OTooSmall (len wire))), IPend pe) /\ cap < len wire /\
     fst (dtls_call E (Poll (len wire)) (IPend pe)) = Ok (Some (OPacket wire))) \/
    exists t, dtls_call E (Poll cap) (IPend pe) = (Ok (Some (OTimeout t)), IPend pe) /\
      (forall t0 ts, ticks h = t0 :: ts -> t = deadline t0 fires).
Proof.
  intros E cfg cert key h pe HR. destruct (schedule_reach _ _ _ _ _ _ HR) as [Hc [fires (H1 & H2 & H3 & H4 & H5 & H6 & H7 & H8)]].
  exists (pe_wire pe), fires. split; [intros t0 ts Ht; rewrite Ht in H3; exact H3|]. cbn [dtls_call]. unfold pending_poll. split.
  - intros S F cap Hcap. rewrite (H8 F S). replace (cap <? len (pe_wire pe)) with false by (symmetry; apply N.ltb_ge; exact Hcap). reflexivity.
  - intro cap. destruct (pe_send pe).
    + destruct (N.ltb_spec cap (len (pe_wire pe))) as [L|L].
      * right. left. split; [reflexivity|]. split; [exact L|]. rewrite N.ltb_irrefl. reflexivity.
      * left. eexists. split; [reflexivity|exact L].
    + right. right. eexists. split; [reflexivity|]. intros t0 ts Ht. rewrite H2, Ht. reflexivity.
Qed.
Print Assumptions C46_hello_poll.
