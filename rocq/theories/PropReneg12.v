(** C51 for DTLS 1.2, continued: a handshake record that is not the first record of
    its datagram.  The vocabulary is that of PropRx12.v. *)
From Coq Require Import String.
Close Scope string_scope.
From Verif Require Import Prelude PreludeFacts Types Codec Codec12 Env Config Context12 Monad MonadFacts Prf Aead
  Record12 Timer Timer12Proofs Window Engine12 Client12 Server12 Toy History12 Conn12 Runs12 Spec
  History12Facts Rx12Ledger Rx12Facts Rx12Runs PropRx12.

(** The data [8] and, in the same datagram, a HelloRequest with the number 9, both
    sealed by the server of [data_run]. *)
Definition hidden_datagram : bytes := Eval vm_compute in
  concat (tx_after toy2 CT_HS [0; 0;0;0; 0;9; 0;0;0; 0;0;0] (snd (calls_log toy2 [Send [8]] (snd data_conn)))).
Definition hidden_record : bytes := Eval vm_compute in skipn (cut hidden_datagram) hidden_datagram.
Definition hidden_run : Log * End12 :=
  replay toy (Packet hidden_datagram :: repeat (Poll 2000) 3) (snd data_run).

Lemma hidden_authentic :
  authentic12 toy (end_eng (snd data_run)) hidden_record CT_HS 1 4 [0; 0;0;0; 0;9; 0;0;0; 0;0;0].
Proof.
  set (pl := skipn 13 hidden_record).
  assert (H : exists i key iv,
    en_suite (end_eng (snd data_run)) = Some 49196 /\ find12 toy 49196 = Some i /\
    (if en_client (end_eng (snd data_run)) then k_scipher (en_crypto (end_eng (snd data_run))) else k_ccipher (en_crypto (end_eng (snd data_run)))) = Some (49196, key) /\
    (if en_client (end_eng (snd data_run)) then k_siv (en_crypto (end_eng (snd data_run))) else k_civ (en_crypto (end_eng (snd data_run)))) = Some iv /\
    s12_enl i = 8%nat /\ s12_tag i = 16%nat /\ length iv = 4%nat /\
    e_open toy 49196 key (iv ++ firstn 8 pl) (be 2 1 ++ be 6 4 ++ [CT_HS; 254; 253] ++ be 2 12) (skipn 8 pl) = Some [0; 0;0;0; 0;9; 0;0;0; 0;0;0]).
  { do 3 eexists. do 7 (split; [vm_compute; reflexivity|]). vm_compute. reflexivity. }
  destruct H as (i & key & iv & H1 & H2 & H3 & H4 & H5 & H6 & H7 & H8).
  exists 49196, i, key, iv, 65277, pl.
  do 4 (split; [assumption|]).
  split. { exists 254, 253, 0, 1, 0, 0, 0, 0, 0, 4, 0, 36. do 4 (split; [vm_compute; reflexivity|]). vm_compute. reflexivity. }
  split; [right; reflexivity|]. split; [discriminate|].
  rewrite H5, H6. split; [apply Nat.leb_le; vm_compute; reflexivity|].
  right. split; [reflexivity|]. split; [exact H7|]. exact H8.
Qed.

(** C51 as it is written, "a new authenticated handshake message ... fails with a
    renegotiation error", does not hold of every datagram.  A connected client gets
    an authentic, fresh handshake record, with a message that is not a
    retransmission, behind a data record in one datagram.  The call succeeds, the
    data is delivered and no call reports the message: only the first record of a
    datagram decides whether it is refused (src/dtls12/engine.rs:251, 300). *)
Theorem C51_renegotiation_hidden12_refuted : exists E cfg auth h s p raw ep sq d f h2 s2,
  suites12_ok E /\ reach12 E cfg auth h s /\ was_connected h s /\ bytes_ok p /\
  record_of p raw /\ authentic12 E (end_eng s) raw CT_HS ep sq d /\ window_check (en_replay (end_eng s)) sq = true /\
  p_frags12 8 d = [f] /\ en_peer_hs (end_eng s) <= f_seq f /\ en_confirmed (end_eng s) = true /\
  (len (en_rx (end_eng s)) < c_max_rx (en_cfg (end_eng s))) /\
  history E s h2 s2 /\ map fst h2 = [Packet p; Poll 2000; Poll 2000; Poll 2000] /\
  exists t, map snd h2 = [Ok None; Ok (Some (OAppData [8])); Ok (Some (OTimeout t)); Ok (Some (OTimeout t))].
Proof.
  exists toy, config_default, (toy_auth 7), (fst data_run), (snd data_run), hidden_datagram, hidden_record, 1, 4,
    [0; 0;0;0; 0;9; 0;0;0; 0;0;0].
  eexists. exists (fst hidden_run), (snd hidden_run).
  split; [exact toy_suites12_ok|]. split; [exact data_run_reach|].
  split; [exact (proj2 (was_connected_release _ _ _ _ _ data_run_reach) (eq_refl true <: en_release (end_eng (snd data_run)) = true))|].
  split; [assert (X := bytes_okb [hidden_datagram] eq_refl); inversion X; assumption|].
  split.
  { apply record_next; [apply Nat.leb_le; vm_compute; reflexivity|apply Nat.leb_le; vm_compute; reflexivity|].
    change (record_of hidden_record (firstn (cut hidden_record) hidden_record)).
    apply record_here; apply Nat.leb_le; vm_compute; reflexivity. }
  split; [exact hidden_authentic|]. split; [vm_compute; reflexivity|]. split; [vm_compute; reflexivity|].
  split; [apply N.leb_le; vm_compute; reflexivity|]. split; [vm_compute; reflexivity|].
  split; [apply N.ltb_lt; vm_compute; reflexivity|].
  split; [apply replay_history; vm_compute; reflexivity|]. split; [vm_compute; reflexivity|].
  eexists. vm_compute. reflexivity.
Qed.
Print Assumptions C51_renegotiation_hidden12_refuted.
