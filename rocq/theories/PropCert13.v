(** C36 for DTLS 1.3: a server that requires a client certificate. *)
From Verif Require Import Prelude PreludeFacts Types Codec Codec12 Codec13 Record12 Record13 Monad MonadFacts Timer
  Env Config Aead Engine12 Client12 Engine13 Client13 Server13 Toy History12 Conn12 History13 Conn13.

(** A client without a certificate: it answers the certificate request with an empty list
    (src/dtls13/client.rs:956-998). *)
Definition bare13_0 : End13 := new_client13 toy config_default [] (toy_key 7) 0.
Definition bare_conn13 : (Log * End13) * (Log * End13) :=
  pump_log13 toy toy2 8 (call_log13 toy (Tick 5) ([], bare13_0)) (call_log13 toy2 (Tick 5) ([], xs0)).
Definition bare_calls13 : list Call := Eval vm_compute in calls_of (fst (snd bare_conn13)).
Definition bare_run13 : Log * End13 := replay13 toy2 bare_calls13 xs0.

(** The claim is false: the server completes with that client and reports no
    certificate (src/dtls13/server.rs:944-1010). *)
Theorem C36_require_client_certificate13_refuted :
  exists E cfg cert key h c, reach13 E cfg cert key h (XS c) /\ c_req_cert cfg = true /\
    In OConnected (outputs h) /\ xs_certs c = [] /\ forall x, ~ In (OPeerCert x) (outputs h).
Proof.
  exists toy2, config_default, [48; 9], (toy_key 9), (fst bare_run13).
  assert (R : reach13 toy2 config_default [48; 9] (toy_key 9) (fst bare_run13) (snd bare_run13)).
  { apply run13_reach; [apply new_server13_start|vm_compute; reflexivity]. }
  assert (K : match snd bare_run13 with XS c => xs_certs c = [] | XC _ => False end) by (vm_compute; reflexivity).
  assert (O : existsb (fun o => match o with OConnected => true | _ => false end) (outputs (fst bare_run13)) = true) by (vm_compute; reflexivity).
  assert (N : forallb (fun o => match o with OPeerCert _ => false | _ => true end) (outputs (fst bare_run13)) = true) by (vm_compute; reflexivity).
  revert R K O N. generalize (snd bare_run13) as s, (fst bare_run13) as h. intros s h R K O N.
  destruct s as [c|c]; [contradiction|]. exists c. split; [exact R|]. split; [reflexivity|].
  split; [|split; [exact K|]].
  - apply existsb_exists in O. destruct O as (o & Ho & Q). destruct o; try discriminate. exact Ho.
  - intros x Hx. rewrite forallb_forall in N. specialize (N _ Hx). discriminate.
Qed.
Print Assumptions C36_require_client_certificate13_refuted.
