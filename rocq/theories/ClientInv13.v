(** The invariant of a DTLS 1.3 client during its handshake. *)
From Coq Require Import String.
From Verif Require Import Prelude PreludeFacts Types Codec Codec12 Codec13 Record12 Record13 Monad MonadFacts
  Timer Env Config Prf Window Engine12 Client12 Engine13 Client13 Server13 Frame13 Lift13 Evidence12 Evidence13
  ClientInv12 ClientStep12 HsEng13.
Close Scope string_scope.

(** ** Growing transcripts *)

Lemma has13_grow T T' b mt body : starts_with T' T -> has13 T b mt body -> has13 T' b mt body.
Proof. intros [x ->] [y ->]. exists (y ++ x). rewrite <- !app_assoc. reflexivity. Qed.
Lemma has13_last T mt body : has13 (T ++ tmsg13 mt body) T mt body.
Proof. exists []. rewrite app_nil_r. reflexivity. Qed.

Section Grow.
Variables (E : Env) (cfg : Config) (T T' : bytes).
Hypothesis H : starts_with T' T.
Lemma offered13_grow kx : offered13 E cfg T kx -> offered13 E cfg T' kx.
Proof. intros (b & ch & t & K & R). exists b, ch, t. split; [eapply has13_grow; eassumption|exact R]. Qed.
Lemma server_hello13_grow kx cs c s hs : server_hello13 E cfg T kx cs c s hs -> server_hello13 E cfg T' kx cs c s hs.
Proof.
  intros (b & raw & h & es & peer & shared & K & R). exists b, raw, h, es, peer, shared.
  split; [eapply has13_grow; eassumption|exact R].
Qed.
Lemma server_certs13_grow kx cs c s hs certs : server_certs13 E cfg T kx cs c s hs certs -> server_certs13 E cfg T' kx cs c s hs certs.
Proof. intros (b & raw & es & K & R). exists b, raw, es. split; [eapply has13_grow; eassumption|exact R]. Qed.
Lemma server_proof13_grow kx cs c s hs certs : server_proof13 E cfg T kx cs c s hs certs -> server_proof13 E cfg T' kx cs c s hs certs.
Proof.
  intros (b & raw & sc & sig & leaf & K & R). exists b, raw, sc, sig, leaf. split; [eapply has13_grow; eassumption|exact R].
Qed.
Lemma server_done13_grow kx cs c s hs certs exp : server_done13 E cfg T kx cs c s hs certs exp -> server_done13 E cfg T' kx cs c s hs certs exp.
Proof. intros (b & vd & K & R). exists b, vd. split; [eapply has13_grow; eassumption|exact R]. Qed.
Lemma client_hello13_grow secret srtp cs g sh : client_hello13 E cfg secret T srtp cs g sh -> client_hello13 E cfg secret T' srtp cs g sh.
Proof.
  intros (b & raw & a & h & l & peer & t & kx & K & R). exists b, raw, a, h, l, peer, t, kx.
  split; [eapply has13_grow; eassumption|exact R].
Qed.
Lemma client_secrets13_grow secret srtp cs c s hs : client_secrets13 E cfg secret T srtp cs c s hs -> client_secrets13 E cfg secret T' srtp cs c s hs.
Proof. intros (b & raw & g & sh & K & R). exists b, raw, g, sh. split; [eapply has13_grow; eassumption|exact R]. Qed.
Lemma client_keys13_grow secret srtp cs c s hs exp : client_keys13 E cfg secret T srtp cs c s hs exp -> client_keys13 E cfg secret T' srtp cs c s hs exp.
Proof. intros (b & vd & K & R). exists b, vd. split; [eapply has13_grow; eassumption|exact R]. Qed.
Lemma client_certs13_grow secret srtp cs c s hs exp certs :
  client_certs13 E cfg secret T srtp cs c s hs exp certs -> client_certs13 E cfg secret T' srtp cs c s hs exp certs.
Proof. intros (b & raw & ctx & es & K & R). exists b, raw, ctx, es. split; [eapply has13_grow; eassumption|exact R]. Qed.
Lemma client_proof13_grow secret srtp cs c s hs exp certs :
  client_proof13 E cfg secret T srtp cs c s hs exp certs -> client_proof13 E cfg secret T' srtp cs c s hs exp certs.
Proof.
  intros (b & raw & sc & sig & leaf & K & R). exists b, raw, sc, sig, leaf. split; [eapply has13_grow; eassumption|exact R].
Qed.
Lemma client_done13_grow secret srtp cs c s hs exp certs :
  client_done13 E cfg secret T srtp cs c s hs exp certs -> client_done13 E cfg secret T' srtp cs c s hs exp certs.
Proof. intros (b & vd & K & R). exists b, vd. split; [eapply has13_grow; eassumption|exact R]. Qed.
End Grow.

(** ** Parsed bodies *)

Lemma body13_inv a mt suite raw b rest : p_body13 a mt suite raw = Some (b, rest) ->
  match b with
  | D_ClientHello h => mt = MT_ClientHello /\ p_ch13 a raw = Some (h, rest)
  | D_ServerHello h => mt = MT_ServerHello /\ p_sh13 raw = Some (h, rest)
  | D_EncryptedExtensions es => mt = MT_EncryptedExtensions /\ p_ee13 raw = Some (es, rest)
  | D_Certificate ctx es => mt = MT_Certificate /\ p_cert13 raw = Some ((ctx, es), rest)
  | D_CertificateVerify sc sig => mt = MT_CertificateVerify /\ p_signed12 raw = Some ((sc, sig), rest)
  | D_Finished vd => mt = MT_Finished /\ raw = vd ++ rest
  | _ => True
  end.
Proof.
  unfold p_body13.
  destruct (mt =? MT_ClientHello) eqn:B1; [destruct (p_ch13 a raw) as [[x y]|]; [intros [= <- <-]; split; [lia|reflexivity]|discriminate]|].
  destruct (mt =? MT_ServerHello) eqn:B2; [destruct (p_sh13 raw) as [[x y]|]; [intros [= <- <-]; split; [lia|reflexivity]|discriminate]|].
  destruct (mt =? MT_EncryptedExtensions) eqn:B3; [destruct (p_ee13 raw) as [[x y]|]; [intros [= <- <-]; split; [lia|reflexivity]|discriminate]|].
  destruct (mt =? MT_Certificate) eqn:B4; [destruct (p_cert13 raw) as [[[x z] y]|]; [intros [= <- <-]; split; [lia|reflexivity]|discriminate]|].
  destruct (mt =? MT_CertificateRequest) eqn:B5; [intros [= <- <-]; exact I|].
  destruct (mt =? MT_CertificateVerify) eqn:B6; [destruct (p_signed12 raw) as [[[x z] y]|]; [intros [= <- <-]; split; [lia|reflexivity]|discriminate]|].
  destruct (mt =? MT_Finished) eqn:B7.
  { destruct suite as [cs|]; [|discriminate]. destruct (take _ raw) as [[x y]|] eqn:Ht; [|discriminate]. intros [= <- <-].
    split; [lia|]. apply take_some in Ht. apply Ht. }
  destruct (mt =? MT_KeyUpdate) eqn:B8.
  { destruct (p_u8 raw) as [[x y]|]; [|discriminate]. destruct y; [|discriminate]. destruct (x =? 0); [intros [= <- <-]; exact I|].
    destruct (x =? 1); [intros [= <- <-]; exact I|discriminate]. }
  intros [= <- <-]. exact I.
Qed.
