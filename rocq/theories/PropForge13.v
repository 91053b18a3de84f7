(** What an attacker without keys can do to a DTLS 1.3 endpoint: refutations of C04, C21
    and C32.  All runs use the default configuration. *)
From Verif Require Import Prelude PreludeFacts Types Codec Codec12 Codec13 Record12 Record13 Monad MonadFacts Env Config Window
  Engine12 Client12 Engine13 Client13 Server13 Toy History12 Conn12 History13 Lift12 Lift13 Out13 Conn13.

Definition mem_bytes (p : bytes) (l : list bytes) : bool := existsb (beqb p) l.
Lemma mem_bytes_in p l : mem_bytes p l = true -> In p l.
Proof. intro H. apply existsb_exists in H. destruct H as (x & Hx & H). apply beqb_eq in H. subst. exact Hx. Qed.
Lemma all_in ps l : forallb (fun p => mem_bytes p l) ps = true -> forall p, In p ps -> In p l.
Proof. intros H p Hp. rewrite forallb_forall in H. apply mem_bytes_in, H, Hp. Qed.

(** ** Injected application data *)

(** A datagram anyone can write: a unified header with the epoch bits 01, number 0 and
    length 4, then "evil". *)
Definition evil13 : bytes := [45; 0; 0; 0; 4] ++ [101; 118; 105; 108].
Definition evil13_conn : (Log * End13) * (Log * End13) :=
  pump_log13 toy toy2 8 (call_log13 toy (Tick 5) ([], xc0))
    (call_log13 toy2 (Packet evil13) (call_log13 toy2 (Tick 5) ([], xs0))).
Definition ec_calls : list Call := Eval vm_compute in calls_of (fst (fst evil13_conn)).
Definition es_calls : list Call := Eval vm_compute in calls_of (fst (snd evil13_conn)).
Definition ec_run : Log * End13 := replay13 toy ec_calls xc0.
Definition es_run : Log * End13 := replay13 toy2 es_calls xs0.
Definition is_send (c : Call) : bool := match c with Send _ => true | _ => false end.
Definition is_connected (o : Output) : bool := match o with OConnected => true | _ => false end.
Definition is_data (d : bytes) (o : Output) : bool := match o with OAppData x => beqb x d | _ => false end.

Lemma saw_connected os : existsb is_connected os = true -> In OConnected os.
Proof. intro K. apply existsb_exists in K. destruct K as (o & Ho & K). destruct o; try discriminate K. exact Ho. Qed.
Lemma saw_data d os : existsb (is_data d) os = true -> In (OAppData d) os.
Proof. intro K. apply existsb_exists in K. destruct K as (o & Ho & K). destruct o; try discriminate K. apply beqb_eq in K. subst. exact Ho. Qed.
Lemma no_sends h : existsb (fun x : Call * Reply => is_send (fst x)) h = false -> forall d r, ~ In (Send d, r) h.
Proof.
  intros K d r H. assert (K' : existsb (fun x : Call * Reply => is_send (fst x)) h = true) by (apply existsb_exists; exists (Send d, r); split; [exact H|reflexivity]).
  rewrite K in K'. discriminate K'.
Qed.

(** The client never writes anything, and the network delivers to each side what the
    other one sent, plus that one datagram to the server, before the ClientHello.  The
    server reports the connection and then delivers the attacker's bytes as application
    data: a record received before peer encryption is on is queued as it came, and only
    those with epoch bits 2 and 3 are decrypted later. *)
Theorem C21_injected_data13_refuted : exists hc c hs s,
  reach13 toy config_default [48; 7] (toy_key 7) hc c /\
  reach13 toy2 config_default [48; 9] (toy_key 9) hs s /\
  Forall (fun x => ~ panicked (snd x)) hc /\ Forall (fun x => ~ panicked (snd x)) hs /\
  (forall d r, ~ In (Send d, r) hc) /\
  (forall p, In p (received hc) -> In p (datagrams (outputs hs))) /\
  (forall p, In p (received hs) -> In p ([45; 0; 0; 0; 4; 101; 118; 105; 108] :: datagrams (outputs hc))) /\
  In OConnected (outputs hs) /\ In (OAppData [101; 118; 105; 108]) (outputs hs).
Proof.
  exists (fst ec_run), (snd ec_run), (fst es_run), (snd es_run).
  split; [apply run13_reach; [apply new_client13_start|vm_compute; reflexivity]|].
  split; [apply run13_reach; [apply new_server13_start|vm_compute; reflexivity]|].
  split; [apply quiet_forall; vm_compute; reflexivity|]. split; [apply quiet_forall; vm_compute; reflexivity|].
  split; [apply no_sends; vm_compute; reflexivity|].
  split; [apply all_in; vm_compute; reflexivity|]. split; [apply all_in; vm_compute; reflexivity|].
  split; [apply saw_connected; vm_compute; reflexivity|]. apply saw_data; vm_compute; reflexivity.
Qed.
Print Assumptions C21_injected_data13_refuted.

(** ** Forged KeyUpdate *)

(** An unprotected handshake record with a KeyUpdate. *)
Definition forged_ku (i : N) : bytes := s_plain13 CT_HS 0 (1000 + i) (s_hs_header MT_KeyUpdate 1 (7 + i) 0 1 ++ [0]).
Definition ss_calls : list Call := xs_calls ++ [Send [1; 2; 3]; Poll 3000].
Definition ss_run : Log * End13 := replay13 toy2 ss_calls xs0.
Definition genuine : bytes := Eval vm_compute in last (datagrams (outputs (fst ss_run))) [].
Definition recv_epochs (s : End13) : list N := map re_epoch (g_recv (end13_eng s)).
Definition after (cs : list Call) (s : End13) : End13 := snd (replay13 toy cs s).

(** Four unprotected records make an established client replace its receive keys four
    times.  The keys the server still uses are gone, and what it sends is never
    delivered. *)
Theorem C04_forged_key_update13_refuted : exists h s hs ss g forged,
  reach13 toy config_default [48; 7] (toy_key 7) h s /\ Forall (fun x => ~ panicked (snd x)) h /\ In OConnected (outputs h) /\
  reach13 toy2 config_default [48; 9] (toy_key 9) hs ss /\ In g (datagrams (outputs hs)) /\
  (forall p, In p forged -> is_ct_header (hd 0 p) = false) /\
  recv_epochs s = [3] /\ recv_epochs (after (map Packet forged) s) = [4; 5; 6; 7] /\
  map snd (fst (replay13 toy [Packet g; Poll 3000] s)) = [Ok None; Ok (Some (OAppData [1; 2; 3]))] /\
  exists a t, map snd (fst (replay13 toy [Packet g; Poll 3000; Poll 3000] (after (map Packet forged) s))) =
    [Ok None; Ok (Some (OPacket a)); Ok (Some (OTimeout t))].
Proof.
  exists (fst xc_run), (snd xc_run), (fst ss_run), (snd ss_run), genuine, (map forged_ku [0; 1; 2; 3]).
  split; [exact xc_run_reach|]. split; [apply quiet_forall; vm_compute; reflexivity|].
  split; [apply saw_connected; vm_compute; reflexivity|].
  split; [apply run13_reach; [apply new_server13_start|vm_compute; reflexivity]|].
  split; [apply mem_bytes_in; vm_compute; reflexivity|].
  split. { intros p Hp. assert (K : forallb (fun p => negb (is_ct_header (hd 0 p))) (map forged_ku [0; 1; 2; 3]) = true) by (vm_compute; reflexivity).
    rewrite forallb_forall in K. specialize (K p Hp). destruct (is_ct_header _); [discriminate|reflexivity]. }
  split; [vm_compute; reflexivity|]. split; [vm_compute; reflexivity|]. split; [vm_compute; reflexivity|].
  eexists; eexists. vm_compute. reflexivity.
Qed.
Print Assumptions C04_forged_key_update13_refuted.

(** Any other unprotected handshake record makes [handle_packet] on an established
    client fail. *)
Definition forged_fin : bytes := s_plain13 CT_HS 0 1000 (s_hs_header MT_Finished 1 100 0 1 ++ [0]).
Theorem C32_forged_handshake13_refuted : exists h s p,
  reach13 toy config_default [48; 7] (toy_key 7) h s /\ Forall (fun x => ~ panicked (snd x)) h /\ In OConnected (outputs h) /\
  is_ct_header (hd 0 p) = false /\ fst (end13_call toy (Packet p) s) = Err ERenegotiation.
Proof.
  exists (fst xc_run), (snd xc_run), forged_fin.
  split; [exact xc_run_reach|]. split; [apply quiet_forall; vm_compute; reflexivity|].
  split; [apply saw_connected; vm_compute; reflexivity|].
  split; vm_compute; reflexivity.
Qed.
Print Assumptions C32_forged_handshake13_refuted.
