(** The steps of a DTLS 1.3 server and the invariant of its handshake. *)
From Coq Require Import String.
From Verif Require Import Prelude PreludeFacts Types Codec Codec12 Codec13 Record12 Record13 Monad MonadFacts
  Timer Env Config Prf Window Engine12 Client12 Engine13 Client13 Server13 Frame13 Lift13 Evidence12 Evidence13
  ClientInv12 ClientStep12 HsEng13 ClientInv13 ClientStep13.
Close Scope string_scope.

(** How far the handshake is. *)
Definition yr (st : SState13) : N :=
  match st with
  | ST_AwaitClientHello => 0 | ST_SendServerHello => 1 | ST_SendEncryptedExtensions => 2
  | ST_SendCertificateRequest => 3 | ST_SendCertificate => 4 | ST_SendCertificateVerify => 5
  | ST_SendFinished => 6 | ST_AwaitCertificate => 7 | ST_AwaitCertificateVerify => 8
  | ST_AwaitFinished => 9 | ST_AwaitApplicationData => 10 | ST_HalfClosedLocal => 11 | ST_Closed => 12
  end.

(** What the invariant is about stays, except that the transcript may grow. *)
Record KY0 (a b : Server13) : Prop := {
  ky_eng : G0 (xs_eng a) (xs_eng b);
  ky_srtp : xs_srtp b = xs_srtp a;
  ky_certs : xs_certs b = xs_certs a;
  ky_hs : xs_hs b = xs_hs a;
  ky_chs : xs_chs b = xs_chs a;
  ky_shs : xs_shs b = xs_shs a;
  ky_secret : xs_secret b = xs_secret a;
  ky_ev : filter is_ck (xs_events b) = filter is_ck (xs_events a) }.
Definition KY (a b : Server13) : Prop := KY0 a b /\ g_exp (xs_eng b) = g_exp (xs_eng a).
Lemma KY0_po : preorder KY0.
Proof.
  split; [intro a; split; auto; apply G0_po|].
  intros a b c [] []. split; try congruence. eapply G0_po; eassumption.
Qed.
Lemma KY_po : preorder KY.
Proof.
  split; [intro a; split; [apply KY0_po|reflexivity]|].
  intros a b c [H1 H2] [K1 K2]. split; [eapply KY0_po; eassumption|congruence].
Qed.
Lemma KY_eng c e : G (xs_eng c) e -> KY c (set_xs_eng e c).
Proof. intros [H1 H2]. split; [split; auto|exact H2]. Qed.

(** What a server waiting for a ClientHello keeps. *)
Definition KZ (a b : Server13) : Prop :=
  g_cfg (xs_eng b) = g_cfg (xs_eng a) /\ xs_srtp b = xs_srtp a /\ xs_certs b = xs_certs a /\
  xs_secret b = xs_secret a /\ xs_events b = xs_events a.
Lemma KZ_po : preorder KZ.
Proof. split; [intro a; repeat split|]. intros a b c (A1 & A2 & A3 & A4 & A5) (B1 & B2 & B3 & B4 & B5). repeat split; congruence. Qed.

(** ** The ClientHello's extensions *)

(** Every value found is in one of the extensions. *)
Record scan_ok (L : list (N * bytes)) (x : ChExts) : Prop := {
  so_v13 : ce_v13 x = true -> exists d vs, In (X_VERSIONS, d) L /\ p_versions_ch d = Some vs /\ In V_DTLS13 vs;
  so_shares : forall l, ce_shares x = Some l -> exists d, In (X_KEYSHARE, d) L /\ p_shares_ch d = Some l;
  so_srtp : forall l, ce_srtp x = Some l -> exists d mki, In (X_SRTP, d) L /\ p_srtp d = Some (l, mki);
  so_cookie : forall c, ce_cookie x = Some c -> exists d, In (X_COOKIE, d) L /\ p_cookie_ext d = Some c }.
Lemma scan_spec L : forall es x x', (forall e, In e es -> In e L) -> scan_ok L x -> ch13_scan x es = Ok x' -> scan_ok L x'.
Proof.
  induction es as [|[t d] es IH]; intros x x' Hin S H; cbn [ch13_scan] in H; [injection H as <-; exact S|].
  assert (Hd : In (t, d) L) by (apply Hin; left; reflexivity).
  assert (Hr : forall e, In e es -> In e L) by (intros; apply Hin; right; assumption).
  destruct (t =? X_VERSIONS) eqn:T1.
  { apply N.eqb_eq in T1. subst t. destruct (p_versions_ch d) as [vs|] eqn:P; [|discriminate]. eapply IH; [exact Hr| |exact H].
    destruct S. split; cbn; auto. intros K. apply orb_prop in K. destruct K as [K|K]; [auto|]. exists d, vs. split; [exact Hd|].
    split; [exact P|apply memN_in, K]. }
  destruct (t =? X_KEYSHARE) eqn:T2.
  { apply N.eqb_eq in T2. subst t. destruct (p_shares_ch d) as [vs|] eqn:P; [|discriminate]. eapply IH; [exact Hr| |exact H].
    destruct S. split; cbn; auto. intros l [= <-]. exists d. auto. }
  destruct (t =? X_GROUPS) eqn:T3.
  { destruct (p_groups13 d) as [vs|] eqn:P; [|discriminate]. eapply IH; [exact Hr| |exact H]. destruct S. split; cbn; auto. }
  destruct (t =? X_SRTP) eqn:T4.
  { apply N.eqb_eq in T4. subst t. destruct (p_srtp d) as [[vs mki]|] eqn:P; [|discriminate]. eapply IH; [exact Hr| |exact H].
    destruct S. split; cbn; auto. intros l [= <-]. exists d, mki. auto. }
  destruct (t =? X_COOKIE) eqn:T5.
  { apply N.eqb_eq in T5. subst t. destruct (p_cookie_ext d) as [vs|] eqn:P; [|discriminate]. destruct (32 <? len vs); [discriminate|].
    eapply IH; [exact Hr| |exact H]. destruct S. split; cbn; auto. intros l [= <-]. exists d. auto. }
  eapply IH; eassumption.
Qed.
Lemma scan_none L : scan_ok L ch13_none.
Proof. split; cbn; discriminate. Qed.

Section ServerFacts.
Variables (E : Env) (cfg : Config).

Record yfacts (n : N) (c : Server13) : Prop := {
  yk_cfg : g_cfg (xs_eng c) = cfg;
  yk_srtp : n = 0 -> xs_srtp c = None;
  yk_none : n <= 7 -> xs_certs c = [];
  yk_shared : n = 1 -> forall shared, xs_shared c = Some shared -> exists cs group, g_suite (xs_eng c) = Some cs /\
    client_hello13 E cfg (xs_secret c) (g_transcript (xs_eng c)) (xs_srtp c) cs group shared;
  yk_keys : 2 <= n -> exists cs a b hs, g_suite (xs_eng c) = Some cs /\
    xs_chs c = Some a /\ xs_shs c = Some b /\ xs_hs c = Some hs /\
    (n <= 6 -> client_secrets13 E cfg (xs_secret c) (g_transcript (xs_eng c)) (xs_srtp c) cs a b hs) /\
    (7 <= n -> exists exp, g_exp (xs_eng c) = Some exp /\
       (n = 7 -> client_keys13 E cfg (xs_secret c) (g_transcript (xs_eng c)) (xs_srtp c) cs a b hs exp) /\
       (n = 8 -> client_certs13 E cfg (xs_secret c) (g_transcript (xs_eng c)) (xs_srtp c) cs a b hs exp (xs_certs c)) /\
       (n = 9 -> xs_certs c = [] /\ client_keys13 E cfg (xs_secret c) (g_transcript (xs_eng c)) (xs_srtp c) cs a b hs exp \/
          client_proof13 E cfg (xs_secret c) (g_transcript (xs_eng c)) (xs_srtp c) cs a b hs exp (xs_certs c)) /\
       (10 <= n -> client_done13 E cfg (xs_secret c) (g_transcript (xs_eng c)) (xs_srtp c) cs a b hs exp (xs_certs c))) }.

Lemma yfacts_keep0 n a b : (n = 1 -> xs_shared b = xs_shared a \/ xs_shared b = None) -> n <= 6 -> KY0 a b -> yfacts n a -> yfacts n b.
Proof.
  intros Hsh Hn6 [(K1 & K2 & K3) K4 K5 K6 K7 K8 K9 K10] [F1 F2 F3 F4 F5]. split.
  - congruence.
  - rewrite K4. exact F2.
  - rewrite K5. exact F3.
  - intros Hn sh Hs. destruct (Hsh Hn) as [Q|Q]; [|congruence]. destruct (F4 Hn sh) as (cs & g & P1 & P2); [congruence|].
    exists cs, g. rewrite K2, K4, K9. split; [exact P1|]. eapply client_hello13_grow; eassumption.
  - intros Hn. destruct (F5 Hn) as (cs & x & y & hs & P1 & P2 & P3 & P4 & P5 & P6).
    exists cs, x, y, hs. rewrite K2, K4, K6, K7, K8, K9. do 4 (split; [assumption|]). split; [|lia].
    intros Hl. eapply client_secrets13_grow; eauto.
Qed.
Lemma yfacts_keep n a b : (n = 1 -> xs_shared b = xs_shared a \/ xs_shared b = None) -> KY a b -> yfacts n a -> yfacts n b.
Proof.
  intros Hsh [K Hexp] F. destruct (N.le_gt_cases n 6) as [L|L]; [eapply yfacts_keep0; eassumption|].
  destruct K as [(K1 & K2 & K3) K4 K5 K6 K7 K8 K9 K10], F as [F1 F2 F3 F4 F5]. split; try lia.
  - congruence.
  - rewrite K5. exact F3.
  - intros Hn. destruct (F5 Hn) as (cs & x & y & hs & P1 & P2 & P3 & P4 & P5 & P6).
    exists cs, x, y, hs. rewrite K2, K4, K5, K6, K7, K8, K9, Hexp. do 4 (split; [assumption|]). split; [lia|].
    intros Hl. destruct (P6 Hl) as (exp & Q1 & Q2 & Q3 & Q4 & Q5). exists exp. split; [exact Q1|].
    split; [intros; eapply client_keys13_grow; eauto|]. split; [intros; eapply client_certs13_grow; eauto|].
    split; [|intros; eapply client_done13_grow; eauto].
    intros Q6. destruct (Q4 Q6) as [[Q7 Q8]|Q7]; [left; split; [exact Q7|eapply client_keys13_grow; eauto]|right; eapply client_proof13_grow; eauto].
Qed.
Lemma yfacts_next n a b : KY a b -> n <> 1 -> yfacts n a -> yfacts n b.
Proof. intros K H. apply yfacts_keep; [contradiction|exact K]. Qed.
Lemma yfacts_rank n m c : yfacts n c -> 2 <= n <= 6 -> 2 <= m <= 6 -> yfacts m c.
Proof.
  intros [F1 F2 F3 F4 F5] Hn Hm. split; try lia; auto; [intros; apply F3; lia|].
  intros _. destruct (F5 ltac:(lia)) as (cs & x & y & hs & P1 & P2 & P3 & P4 & P5 & P6).
  exists cs, x, y, hs. do 4 (split; [assumption|]). split; [intros; apply P5; lia|lia].
Qed.
Lemma yfacts_early a b : KZ a b -> yfacts 0 a -> yfacts 0 b.
Proof.
  intros (K1 & K2 & K3 & K4 & K5) [F1 F2 F3 F4 F5]. split; try lia; [congruence|rewrite K2; exact F2|rewrite K3; exact F3].
Qed.

Definition ypost (c : Server13) (r : res SState13) (c' : Server13) : Prop :=
  (xs_certs c' = xs_certs c \/ xs_certs c = []) /\
  match r with
  | Ok st => yfacts (yr st) c' /\ yr st <= 10 /\
      if yr st <? 10 then filter is_ck (xs_events c') = filter is_ck (xs_events c)
      else exists k, filter is_ck (xs_events c') = filter is_ck (xs_events c) ++ LE_Connected :: k /\
        (k = [] \/ exists km p cs exp, k = [LE_Keying km p] /\ xs_srtp c' = Some p /\
           g_suite (xs_eng c') = Some cs /\ g_exp (xs_eng c') = Some exp /\ keying_ok13 E cs exp p km)
  | _ => yfacts (yr (xs_state c)) c' /\ filter is_ck (xs_events c') = filter is_ck (xs_events c)
  end.

Lemma yz {A} (m : M Eng13 A) (Q : res A -> Server13 -> Prop) c c1 : pres GT m -> KY c c1 ->
  (forall r e', GT (xs_eng c1) e' -> KY c (set_xs_eng e' c1) -> Q r (set_xs_eng e' c1)) -> wp (yeng m) Q c1.
Proof.
  intros P K H. apply wp_zoom. specialize (P (xs_eng c1)). unfold wp. destruct (m (xs_eng c1)) as [r e']. apply H; [exact P|].
  eapply KY_po; [exact K|]. apply KY_eng, GT_G, P.
Qed.
Lemma ypost_fail c r c' : KY c c' -> (yr (xs_state c) = 1 -> xs_shared c' = xs_shared c \/ xs_shared c' = None) -> yfacts (yr (xs_state c)) c ->
  match r with Ok _ => False | _ => True end -> ypost c r c'.
Proof.
  intros K Hk F Hr. split; [left; apply K|]. destruct r; [destruct Hr|..]; (split; [eapply yfacts_keep; eassumption|apply K]).
Qed.
Lemma ypost_stay c st c' : KY c c' -> yr st <> 1 -> yfacts (yr (xs_state c)) c ->
  st = xs_state c -> yr st < 10 -> ypost c (Ok st) c'.
Proof.
  intros K Hk F -> Hlt. split; [left; apply K|]. split; [eapply yfacts_next; eassumption|]. split; [lia|].
  replace (yr (xs_state c) <? 10) with true by lia. apply K.
Qed.
Lemma ypost_next c st c' n : KY c c' -> yfacts n c -> 2 <= n <= 6 -> 2 <= yr st <= 6 -> ypost c (Ok st) c'.
Proof.
  intros K F Hn Hst. split; [left; apply K|]. split; [|split; [lia|replace (yr st <? 10) with true by lia; apply K]].
  apply (yfacts_rank n); try assumption. eapply yfacts_next; [exact K|lia|exact F].
Qed.

(** ** Waiting for a ClientHello *)

Lemma ypost_early c r c' : xs_state c = ST_AwaitClientHello -> yfacts 0 c -> KZ c c' ->
  match r with Ok st => st = ST_AwaitClientHello | _ => True end -> ypost c r c'.
Proof.
  intros Hst F K Hr. pose proof K as (_ & _ & K3 & _ & K5). split; [left; exact K3|]. rewrite Hst.
  pose proof (yfacts_early _ _ K F) as F'. destruct r as [st|e|n]; [rewrite Hr|..]; (split; [exact F'|]); rewrite K5; auto. split; [cbn; lia|reflexivity].
Qed.
Lemma kz_z {A} (m : M Eng13 A) : pres (fun a b => g_cfg b = g_cfg a) m -> pres KZ (yeng m).
Proof.
  intros P c. specialize (P (xs_eng c)). unfold yeng, zoom. destruct (m (xs_eng c)) as [r e]. cbn in *. repeat split. exact P.
Qed.
Lemma cfg_gt {A} (m : M Eng13 A) : pres GT m -> pres (fun a b => g_cfg b = g_cfg a) m.
Proof. intros P e. apply (P e). Qed.
Lemma cfg_replace n : pres (fun a b => g_cfg b = g_cfg a) (replace_transcript E n).
Proof.
  intros e. change (wp (replace_transcript E n) (fun _ e' => g_cfg e' = g_cfg e) e). unfold replace_transcript.
  apply wp_bind, hash_alg_spec; [|reflexivity]. intros cs Hcs. apply wp_bind, wp_get. destruct (Nat.ltb _ _); [apply wp_panic; reflexivity|].
  apply wp_modify. reflexivity.
Qed.
Lemma cfg_create mt body : pres (fun a b => g_cfg b = g_cfg a) (create_handshake13 E mt (ret body)).
Proof.
  intros e. pose proof (create_msg E mt (ret body) e (fun e => po_refl _ GT_po e)) as W. apply W.
Qed.
Lemma kz_retry cs cookie group : pres KZ (y_retry E cs cookie group).
Proof.
  unfold y_retry, send_hello_retry.
  presauto KZ_po ltac:(first [apply kz_z; first [apply cfg_gt; first [apply gt_begin|apply gt_advance|apply gt_reset]
    | apply cfg_create | apply cfg_replace | apply pres_modify; reflexivity ]
    | apply pres_modify; intro; repeat split]).
Qed.
Lemma retry_state cs cookie group c : wp (y_retry E cs cookie group) (fun r c' => KZ c c' /\
  match r with Ok st => st = ST_AwaitClientHello | _ => True end) c.
Proof.
  unfold wp. split; [apply kz_retry|]. unfold y_retry.
  match goal with |- match fst (?m c) with _ => _ end => change (wp m (fun r _ => match r with Ok st => st = ST_AwaitClientHello | _ => True end) c) end.
  repeat first [apply wp_bind | match goal with |- wp (yeng ?m) _ ?s => unfold wp at 1; destruct (yeng m s) as [[?|?|?] ?]; cbn [fst snd] end
    | match goal with |- wp (send_hello_retry ?a ?b ?c ?d) _ ?s => unfold wp at 1; destruct (send_hello_retry a b c d s) as [[?|?|?] ?]; cbn [fst snd] end
    | apply wp_get | apply wp_modify | apply wp_ret | exact I | reflexivity].
Qed.

Lemma find_in {A} f (l : list A) x : find f l = Some x -> In x l /\ f x = true.
Proof. apply find_some. Qed.

(** The checked ClientHello. *)
Section Accept.
Variables (c : Server13) (before raw : bytes) (auto : bool) (h : ClientHello13) (x : ChExts).
Hypothesis (Hst : xs_state c = ST_AwaitClientHello) (F : yfacts 0 c).
Hypothesis (Hp : p_ch13 auto raw = Some (h, [])) (Hv : h_version h = V_DTLS12) (Hc : In 0 (h_comps h)).
Hypothesis (Hx : scan_ok (h_exts h) x) (H13 : ce_v13 x = true).

Lemma step_accept cs group peer l c1 : KZ c c1 -> g_transcript (xs_eng c1) = before ++ tmsg13 MT_ClientHello raw ->
  In cs (h_suites h) -> In cs (cfg_suites13 E cfg) -> ce_shares x = Some l -> In (group, peer) l ->
  (c_cookie cfg = true -> exists mac, ce_cookie x = Some mac /\ e_hmac E H_SHA256 (xs_secret c) (h_random h) = Some mac) ->
  wp (y_accept_hello E cs x group peer) (ypost c) c1.
Proof.
  intros K Ht H1 H2 H3 H4 H5. unfold y_accept_hello. apply wp_bind, wp_get.
  destruct (memN group _) eqn:Hg; cbn [negb]; [|apply wp_fail, ypost_early; auto].
  pose proof K as (K1 & K2 & K3 & K4 & K5). rewrite K1, (yk_cfg _ _ F) in Hg. apply memN_in in Hg.
  apply wp_bind, wp_zoom. eapply wp_mono; [apply (fun e => gt_draw_spec e)|]. intros r e' [G1 Hr].
  destruct r as [t|e|n]; [|destruct Hr..]. 
  match goal with |- wp _ _ ?y => assert (D : exists c2, y = c2 /\ KZ c c2 /\ g_transcript (xs_eng c2) = before ++ tmsg13 MT_ClientHello raw) end.
  { eexists. split; [reflexivity|]. destruct G1 as (W1 & W2 & W3 & W4). split; [|cbn [xs_eng set_xs_eng]; rewrite W3; exact Ht]. eapply KZ_po; [exact K|]. repeat split. exact W1. }
  destruct D as (c2 & -> & Kc2 & T2). clear K K1 K2 K3 K4 K5 Ht c1 G1 e'.
  apply wp_bind, of_opt_spec; [|apply ypost_early; auto]. intros kx Hkx. apply wp_bind, wp_modify.
  apply wp_bind, of_opt_spec; [|apply ypost_early; auto; try (eapply KZ_po; [exact Kc2|repeat split])]. intros shared Hsh.
  apply wp_bind, wp_modify.
  assert (W : forall sr c3, xs_certs c3 = xs_certs c2 /\ xs_secret c3 = xs_secret c2 /\ xs_events c3 = xs_events c2 /\ xs_eng c3 = xs_eng c2 /\
      xs_srtp c3 = sr /\ xs_shared c3 = Some shared ->
      (forall p, sr = Some p -> exists ps mki, lists13 h X_SRTP p_srtp (ps, mki) /\ In p ps /\ In p srtp_known) ->
      wp (yeng (modify (set_g_suite (Some cs))) ;;; 
          modify (fun s => set_xs_ext (xs_ext s ++ be 2 group ++ be 4 0 ++ be 4 (len (snd kx))) s) ;;;
          yeng advance_peer ;;; ret ST_SendServerHello) (ypost c) c3).
  { intros sr c3 (Q1 & Q2 & Q3 & Q4 & Q5 & Q6) Hsr. apply wp_bind, wp_zoom, wp_modify, wp_bind, wp_modify, wp_bind, wp_zoom.
    unfold advance_peer. apply wp_modify, wp_ret.
    match goal with |- ypost _ _ ?y => assert (D : exists c4, y = c4 /\ xs_certs c4 = xs_certs c2 /\ xs_secret c4 = xs_secret c2 /\ xs_events c4 = xs_events c2 /\
       xs_srtp c4 = sr /\ xs_shared c4 = Some shared /\ g_cfg (xs_eng c4) = g_cfg (xs_eng c2) /\ g_suite (xs_eng c4) = Some cs /\
       g_transcript (xs_eng c4) = g_transcript (xs_eng c2)) end.
    { eexists. split; [reflexivity|]. cbn. rewrite Q4. repeat split; assumption. }
    destruct D as (c4 & -> & D1 & D2 & D3 & D4 & D5 & D6 & D7 & D8). destruct Kc2 as (K1 & K2 & K3 & K4 & K5).
    split; [left; rewrite D1; exact K3|]. split; [|split; [cbn; lia|cbn [yr]; change (1 <? 10) with true; cbv iota; rewrite D3, K5; reflexivity]].
    split; cbn [yr]; try lia.
    - rewrite D6, K1. apply F.
    - intros _. rewrite D1, K3. apply F. lia.
    - intros _ sh Hs. assert (sh = shared) by congruence. subst sh. exists cs, group. split; [exact D7|].
      rewrite D2, K4, D4, D8, T2.
      destruct (so_v13 _ _ Hx H13) as (dv & vs & V1 & V2 & V3). destruct (so_shares _ _ Hx _ H3) as (ds & S1 & S2).
      exists before, raw, auto, h, l, peer, t, kx. split; [apply has13_last|]. split; [exact Hp|]. split; [exact Hv|]. split; [exact Hc|].
      split; [exists vs; split; [exists dv; auto|exact V3]|]. split; [exact H1|]. split; [exact H2|]. split; [exact Hg|].
      split; [exists ds; auto|]. split; [exact H4|]. split; [exact Hkx|]. split; [exact Hsh|]. split; [exact Hsr|].
      intros Hck. destruct (H5 Hck) as (mac & M1 & M2). exists mac. destruct (so_cookie _ _ Hx _ M1) as (dc & C1 & C2).
      split; [exists dc; auto|exact M2]. }
  apply wp_bind. destruct (find _ _) as [p|] eqn:Hf; [apply wp_modify|apply wp_ret].
  - apply (W (Some p)); [repeat split|]. intros q [= <-]. apply find_in in Hf. destruct Hf as [Hf1 Hf2].
    destruct (ce_srtp x) as [ps|] eqn:Hps; [|destruct Hf1]. destruct (so_srtp _ _ Hx _ Hps) as (d & mki & S1 & S2).
    exists ps, mki. split; [exists d; auto|]. split; [exact Hf1|apply memN_in, Hf2].
  - apply (W None); [|discriminate]. repeat split. cbn. destruct Kc2 as (_ & -> & _). apply F. reflexivity.
Qed.

Lemma step_select tlen c1 : KZ c c1 -> g_transcript (xs_eng c1) = before ++ tmsg13 MT_ClientHello raw ->
  wp (y_select E h x tlen) (ypost c) c1.
Proof.
  intros K Ht. pose proof K as (K1 & K2 & K3 & K4 & K5). unfold y_select. apply wp_bind, wp_get. rewrite K1, (yk_cfg _ _ F), K4.
  apply wp_bind, of_opt_spec; [|apply ypost_early; auto]. intros cs Hcs. apply find_in in Hcs. destruct Hcs as [Hcs1 Hcs2].
  unfold suite13_allowed in Hcs2. rewrite K1, (yk_cfg _ _ F) in Hcs2. apply memN_in in Hcs2.
  apply wp_bind, wp_modify.
  match goal with |- wp _ _ ?y => assert (D : exists c2, y = c2 /\ KZ c c2 /\ g_transcript (xs_eng c2) = before ++ tmsg13 MT_ClientHello raw) end.
  { eexists. split; [reflexivity|]. split; [|exact Ht]. eapply KZ_po; [exact K|repeat split]. }
  destruct D as (c2 & -> & Kc2 & T2).
  assert (R : forall cookie group, wp (y_retry E cs cookie group) (ypost c) c2).
  { intros cookie group. eapply wp_mono; [apply retry_state|]. intros r c' [R1 R2]. apply ypost_early; auto. eapply KZ_po; eassumption. }
  assert (C13 : forall (k : bytes -> YM SState13), (forall v, e_hmac E H_SHA256 (xs_secret c) (h_random h) = Some v -> wp (k v) (ypost c) c2) ->
    wp (let! v := cookie13 E (xs_secret c) (h_random h) in k v) (ypost c) c2).
  { intros k Hk. apply wp_bind. unfold cookie13. destruct (e_hmac _ _ _ _) as [v|] eqn:Hm; [apply wp_ret, Hk; reflexivity|apply wp_panic, ypost_early; auto]. }
  match goal with |- context [if beqb _ _ then ?f else _] => assert (Fin : (c_cookie cfg = true -> exists mac, ce_cookie x = Some mac /\
     e_hmac E H_SHA256 (xs_secret c) (h_random h) = Some mac) -> wp f (ypost c) c2) end.
  { intros Hck. destruct (find _ (list_of (ce_shares x))) as [[g peer]|] eqn:Hf.
    - apply find_in in Hf. destruct Hf as [Hf _]. destruct (ce_shares x) as [l|] eqn:Hl; [|destruct Hf].
      apply (step_accept cs g peer l); auto.
    - destruct (find _ (cfg_groups E cfg)) as [g|]; [|apply wp_fail, ypost_early; auto].
      destruct (xs_retry c1); [apply wp_fail, ypost_early; auto|]. apply C13. intros v _. apply R. }
  destruct (c_cookie cfg) eqn:Hck.
  - apply C13. intros v Hm. destruct (ce_cookie x) as [ck|] eqn:Hk.
    + destruct (beqb ck v) eqn:Hb; [|apply wp_fail, ypost_early; auto]. apply beqb_eq in Hb. subst ck. apply Fin. intros _. exists v. auto.
    + destruct (xs_retry c1); [|apply R]. apply wp_bind, wp_zoom, wp_modify, wp_ret, ypost_early; auto.
  - destruct (ce_cookie x) as [ck|] eqn:Hk.
    + apply C13. intros v Hm. destruct (beqb ck v); [|apply wp_fail, ypost_early; auto]. apply Fin. discriminate.
    + apply Fin. discriminate.
Qed.
End Accept.

Lemma step_await_client_hello c : xs_state c = ST_AwaitClientHello -> yfacts 0 c -> wp (y_await_client_hello E) (ypost c) c.
Proof.
  intros Hst F. unfold y_await_client_hello. apply wp_bind, wp_get.
  replace (if xs_auto c then next_client_hello_auto else next_handshake13 MT_ClientHello) with (next_handshake13_gen (xs_auto c) true MT_ClientHello)
    by (destruct (xs_auto c); reflexivity).
  apply wp_bind, wp_zoom. eapply wp_mono; [apply next_msg|].
  intros [[m|]|e|n] e'; cbv beta iota; [|intros H..]; [|try apply wp_ret; apply ypost_early; auto; repeat split; apply H..].
  intros (H1 & H2 & H3 & H4 & rest & H5 & H6). apply body13_inv in H5.
  assert (K : KZ c (set_xs_eng e' c)) by (repeat split; exact H1).
  destruct (n_body m) as [h|h|es|ctx es|raw|sc sig|vd|b|t]; try (apply wp_panic, ypost_early; auto).
  destruct H5 as [T P]. rewrite T in *. destruct H6 as [-> |H6]; [|discriminate].
  destruct (negb (is_nil _)); [apply wp_fail, ypost_early; auto|].
  destruct (h_version h =? V_DTLS12) eqn:Hv; cbn [negb]; [|apply wp_fail, ypost_early; auto]. apply N.eqb_eq in Hv.
  destruct (memN 0 _) eqn:Hc; cbn [negb]; [|apply wp_fail, ypost_early; auto]. apply memN_in in Hc.
  destruct (ch13_scan _ _) as [x|e|n] eqn:Hx; [|apply wp_fail, ypost_early; auto|apply wp_panic, ypost_early; auto].
  destruct (ce_v13 x) eqn:H13; cbn [negb]; [|apply wp_fail, ypost_early; auto].
  eapply step_select; eauto. eapply scan_spec; [|apply scan_none|exact Hx]. auto.
Qed.

(** ** The server's flight *)

Lemma step_send_server_hello c : xs_state c = ST_SendServerHello -> yfacts 1 c -> wp (y_send_server_hello E) (ypost c) c.
Proof.
  intros Hst F. assert (F' : yfacts (yr (xs_state c)) c) by (rewrite Hst; exact F).
  assert (KR : KY c c) by apply KY_po.
  unfold y_send_server_hello. apply wp_bind, wp_get. destruct (xs_random c) as [random|]; [|apply wp_panic, ypost_fail; auto].
  destruct (len (xs_ext c) <? 10); [apply wp_panic, ypost_fail; auto|]. cbv zeta.
  apply wp_bind, wp_modify.
  match goal with |- wp _ _ ?y => assert (D : exists c1, y = c1 /\ KY c c1 /\ xs_shared c1 = xs_shared c /\ g_transcript (xs_eng c1) = g_transcript (xs_eng c)) end.
  { eexists. split; [reflexivity|]. split; [|split; reflexivity]. split; [split; auto; repeat split; apply starts_with_refl|reflexivity]. }
  destruct D as (c1 & -> & K1 & S1 & T1).
  apply wp_bind, (yz _ _ c); [apply gt_begin|exact K1|]. intros r e1 G1 K2.
  destruct r as [[]|e|n]; [|apply ypost_fail; auto..].
  apply wp_bind, wp_zoom. eapply wp_mono; [apply create_msg|].
  { intros e. unfold create_server_hello13, bind, get. destruct (g_suite e); [|apply GT_po]. destruct (_ || _); apply GT_po. }
  cbn [xs_eng set_xs_eng]. intros r e2 [G2 Hb]. assert (K3 : KY c (set_xs_eng e2 c1)).
  { eapply KY_po; [exact K2|]. apply (KY_eng (set_xs_eng e1 c1)), G2. }
  replace (set_xs_eng e2 (set_xs_eng e1 c1)) with (set_xs_eng e2 c1) by (destruct c1; reflexivity).
  destruct r as [[]|e|n]; [|apply ypost_fail; auto..].
  destruct Hb as (body & _ & Hb). destruct G1 as (_ & _ & G1 & _). rewrite G1, T1 in Hb.
  apply wp_bind, of_opt_spec; [|apply ypost_fail; auto]. intros shared Hsh.
  destruct (yk_shared _ _ F eq_refl _ Hsh) as (cs & group & P1 & P2).
  apply wp_bind, wp_modify. apply wp_bind, wp_zoom. cbn [xs_eng set_xs_eng set_xs_shared].
  eapply wp_mono; [apply derive_hs_spec|]. intros r e3 [-> Hq].
  match goal with |- match r with Ok b => _ | Err e => _ ?y | Panic n => _ end => assert (D : exists c3, y = c3 /\ KY c c3 /\ xs_shared c3 = None /\ xs_eng c3 = e2) end.
  { eexists. split; [reflexivity|]. split; [|split; reflexivity]. eapply KY_po; [exact K3|].
    split; [split; auto; repeat split; apply starts_with_refl|reflexivity]. }
  destruct D as (c3 & -> & K4 & S4 & E4).
  destruct r as [q|e|n]; [|apply ypost_fail; auto..].
  destruct Hq as (cs' & Q1 & Q2). pose proof (kx_suite := proj1 (proj2 (ky_eng _ _ (proj1 K4)))). rewrite E4 in kx_suite.
  assert (cs' = cs) by congruence. subst cs'.
  apply wp_bind, wp_modify, wp_bind, wp_modify, wp_bind, wp_modify.
  match goal with |- wp _ _ ?y => assert (D : exists c5, y = c5 /\ xs_eng c5 = e2 /\ xs_srtp c5 = xs_srtp c3 /\ xs_certs c5 = xs_certs c3 /\ xs_secret c5 = xs_secret c3 /\
     xs_events c5 = xs_events c3 /\ xs_shared c5 = None /\ xs_chs c5 = Some (fst (fst q)) /\ xs_shs c5 = Some (snd (fst q)) /\ xs_hs c5 = Some (snd q)) end.
  { eexists. split; [reflexivity|]. cbn. repeat split; assumption. }
  destruct D as (c5 & -> & D1 & D2 & D3 & D4 & D5 & D6 & D7 & D8 & D9).
  destruct K4 as [[(Z1 & Z2 & Z3) Z4 Z5 Z6 Z7 Z8 Z9 Z10] Z11]. rewrite E4 in *.
  apply wp_bind, (yz _ _ c5); [apply gt_install_hs|apply KY_po|]. intros r e6 (W1 & W2 & W3 & W4) _. rewrite D1 in *.
  assert (Q : yfacts 2 (set_xs_eng e6 c5)).
  { split; cbn [xs_eng xs_srtp xs_certs xs_shared xs_secret xs_hs xs_chs xs_shs set_xs_eng]; try lia.
    - rewrite W1, Z1. apply F.
    - intros _. rewrite D3, Z5. apply F. lia.
    - intros _. exists cs, (fst (fst q)), (snd (fst q)), (snd q). split; [congruence|]. do 3 (split; [assumption|]). split; [intros _|lia].
      rewrite W3, D4, Z9, D2, Z4, Hb. exists (g_transcript (xs_eng c)), body, group, shared. split; [apply has13_last|].
      split; [exact P2|]. rewrite Hb in Q2. exact Q2. }
  destruct r as [[]|e|n].
  - apply wp_ret. split; [left; cbn; rewrite D3; exact Z5|]. split; [exact Q|]. split; [cbn; lia|]. cbn. rewrite D5. exact Z10.
  - split; [left; cbn; rewrite D3; exact Z5|]. rewrite Hst. split; [|cbn; rewrite D5; exact Z10].
    destruct Q as [Q3 Q4 Q5 Q6 Q7]. split; cbn [yr]; try lia; [exact Q3|intros; apply Q5; lia|]. cbn. rewrite D6. discriminate.
  - split; [left; cbn; rewrite D3; exact Z5|]. rewrite Hst. split; [|cbn; rewrite D5; exact Z10].
    destruct Q as [Q3 Q4 Q5 Q6 Q7]. split; cbn [yr]; try lia; [exact Q3|intros; apply Q5; lia|]. cbn. rewrite D6. discriminate.
Qed.

Lemma ysend c c1 mt mk (k : YM SState13) : 2 <= yr (xs_state c) < 10 -> yfacts (yr (xs_state c)) c -> KY c c1 -> (forall e, GT e (snd (mk e))) ->
  (forall c' body, KY c c' -> fst (mk (xs_eng c1)) = Ok body -> g_transcript (xs_eng c') = g_transcript (xs_eng c1) ++ tmsg13 mt body ->
     wp k (ypost c) c') -> wp (yeng (create_handshake13 E mt mk) ;;; k) (ypost c) c1.
Proof.
  intros Hn F K Hmk Hk. apply wp_bind, wp_zoom. eapply wp_mono; [apply create_msg, Hmk|]. intros r e' [G1 Hb].
  assert (K2 : KY c (set_xs_eng e' c1)) by (eapply KY_po; [exact K|apply KY_eng, G1]).
  destruct r as [[]|e|n]; [destruct Hb as (body & B1 & B2); eapply Hk; eassumption|apply ypost_fail; auto; lia..].
Qed.
Ltac yintro c Hst F F' := intros Hst F; assert (F' : yfacts (yr (xs_state c)) c) by (rewrite Hst; exact F).

Lemma step_send_ee c : xs_state c = ST_SendEncryptedExtensions -> yfacts 2 c -> wp (y_send_encrypted_extensions E) (ypost c) c.
Proof.
  yintro c Hst F F'. unfold y_send_encrypted_extensions. apply wp_bind, wp_get.
  apply (ysend c); auto; [rewrite Hst; cbn; lia|apply KY_po|intro; apply GT_po|]. intros c' b K _ _.
  apply wp_ret, (ypost_next c _ c' 2); auto; [lia|destruct (c_req_cert _); cbn; lia].
Qed.
Lemma step_send_cr c : xs_state c = ST_SendCertificateRequest -> yfacts 3 c -> wp (y_send_certificate_request E) (ypost c) c.
Proof.
  yintro c Hst F F'. unfold y_send_certificate_request.
  apply (ysend c); auto; [rewrite Hst; cbn; lia|apply KY_po|intro; apply GT_po|]. intros c' b K _ _.
  apply wp_bind, wp_modify, wp_ret, (ypost_next c _ _ 3); auto; [|lia|cbn; lia].
  eapply KY_po; [exact K|]. split; [split; auto; repeat split; apply starts_with_refl|reflexivity].
Qed.
Lemma step_send_cert13 c : xs_state c = ST_SendCertificate -> yfacts 4 c -> wp (y_send_certificate E) (ypost c) c.
Proof.
  yintro c Hst F F'. unfold y_send_certificate.
  apply (ysend c); auto; [rewrite Hst; cbn; lia|apply KY_po|intro; apply GT_po|]. intros c' b K _ _.
  apply wp_ret, (ypost_next c _ c' 4); auto; [lia|cbn; lia].
Qed.
Lemma step_send_cv13 c : xs_state c = ST_SendCertificateVerify -> yfacts 5 c -> wp (y_send_certificate_verify E) (ypost c) c.
Proof.
  yintro c Hst F F'. unfold y_send_certificate_verify.
  apply (ysend c); auto; [rewrite Hst; cbn; lia|apply KY_po|intro; apply gt_create_cv|]. intros c' b K _ _.
  apply wp_ret, (ypost_next c _ c' 5); auto; [lia|cbn; lia].
Qed.
Lemma step_send_finished13 c : xs_state c = ST_SendFinished -> yfacts 6 c -> wp (y_send_finished E) (ypost c) c.
Proof.
  yintro c Hst F F'. unfold y_send_finished. apply wp_bind, wp_get.
  assert (KR : KY c c) by apply KY_po. assert (N1 : yr (xs_state c) <> 1) by (rewrite Hst; discriminate).
  apply wp_bind, of_opt_spec; [|apply ypost_fail; auto]. intros shs Hshs.
  apply (ysend c); auto; [rewrite Hst; cbn; lia|intro e; apply (op_verify_data E _ GT_po)|]. intros c1 vd K1 Hvd T1.
  pose proof (verify_data_spec E shs (xs_eng c)) as V. unfold wp in V. rewrite Hvd in V. destruct V as (_ & cs & V1 & V2).
  apply wp_bind, of_opt_spec; [|apply ypost_fail; auto; contradiction]. intros hs Hhs.
  apply wp_bind, wp_zoom. eapply wp_mono; [apply derive_app_spec|]. intros r e2 (G1 & G2 & G3).
  assert (K2 : KY0 c (set_xs_eng e2 c1)). { eapply KY0_po; [apply K1|]. split; auto. }
  assert (U : forall r c3, KY0 c c3 -> match r with Ok _ => False | _ => True end -> ypost c r c3).
  { intros r' c3 K4 Hr'. split; [left; apply K4|]. destruct r'; [destruct Hr'|..]; (split; [rewrite Hst; eapply yfacts_keep0; [discriminate|cbn; lia|exact K4|exact F]|apply K4]). }
  destruct r as [q|e|n]; [|apply U; auto..].
  destruct G3 as (cs' & exp & Q1 & Q2 & Q3). destruct (ky_eng _ _ (proj1 K1)) as (A1 & A2 & A3). assert (cs' = cs) by congruence. subst cs'.
  apply wp_bind, (yz _ _ (set_xs_eng e2 c1)); [apply gt_install_app|apply KY_po|]. intros r e3 W KA.
  assert (KB : KY0 c (set_xs_eng e3 (set_xs_eng e2 c1))) by (eapply KY0_po; [exact K2|apply KA]).
  destruct r as [[]|e|n]; [|apply U; auto..].
  apply wp_bind, (yz _ _ (set_xs_eng e2 c1)); [apply gt_enable|exact KA|]. intros r e4 W2 KC.
  match goal with |- match r with Ok b => _ | Err e => _ ?y | Panic n => _ end => assert (D : exists c5, y = c5 /\ KY0 c c5 /\
    g_exp (xs_eng c5) = Some exp /\ g_transcript (xs_eng c5) = g_transcript (xs_eng c1)) end.
  { eexists. split; [reflexivity|]. split; [eapply KY0_po; [exact K2|apply KC]|].
    destruct W as (X1 & X2 & X3 & X4), W2 as (Y1 & Y2 & Y3 & Y4). cbn [xs_eng set_xs_eng] in *. split; congruence. }
  destruct D as (c5 & -> & KD & D1 & D2).
  destruct r as [[]|e|n]; [|apply U; auto..]. apply wp_ret.
  destruct KD as [(Z1 & Z2 & Z3) Z4 Z5 Z6 Z7 Z8 Z9 Z10].
  assert (FK : client_keys13 E cfg (xs_secret c5) (g_transcript (xs_eng c5)) (xs_srtp c5) cs (match xs_chs c with Some a => a | None => [] end) shs hs exp /\
     exists a, xs_chs c = Some a).
  { destruct (yk_keys _ _ F ltac:(lia)) as (cs' & a & b & hs' & P1 & P2 & P3 & P4 & P5 & P6).
    assert (cs' = cs) by congruence. subst cs'. assert (hs' = hs) by congruence. subst hs'. assert (b = shs) by congruence. subst b.
    rewrite P2. split; [|eauto]. rewrite D2, T1, Z9, Z4. exists (g_transcript (xs_eng c)), vd. split; [apply has13_last|]. split; [exact V2|].
    split; [rewrite <- T1; exact Q3|]. apply P5. lia. }
  destruct FK as [FK (a & Ha)]. rewrite Ha in FK.
  assert (Y : forall n, n = 7 \/ n = 9 -> yfacts n c5).
  { intros n Hn. split; try lia.
    - rewrite Z1. apply F.
    - intros _. rewrite Z5. apply F. lia.
    - intros _. exists cs, a, shs, hs. rewrite Z2, Z6, Z7, Z8. do 4 (split; [assumption|]). split; [lia|]. intros _. exists exp. split; [exact D1|].
      split; [intros _; exact FK|]. split; [lia|]. split; [|lia]. intros _. left. split; [rewrite Z5; apply F; lia|exact FK]. }
  split; [left; exact Z5|]. split; [destruct (xs_auth c); apply Y; cbn; lia|]. split; [destruct (xs_auth c); cbn; lia|].
  destruct (xs_auth c); exact Z10.
Qed.

(** ** The client's flight *)

Lemma ynext c w (k : option Msg13 -> YM SState13) : 2 <= yr (xs_state c) < 10 -> yfacts (yr (xs_state c)) c ->
  (forall c', KY c c' -> wp (k None) (ypost c) c') ->
  (forall m c' rest, KY c c' ->
     g_transcript (xs_eng c') = g_transcript (xs_eng c) ++ tmsg13 (n_type m) (n_raw m) ->
     p_body13 false (n_type m) (g_suite (xs_eng c)) (n_raw m) = Some (n_body m, rest) ->
     (rest = [] \/ mt13_known (n_type m) = false) -> wp (k (Some m)) (ypost c) c') ->
  wp (let! o := yeng (next_handshake13 w) in k o) (ypost c) c.
Proof.
  intros Hn F HN HS.
  apply wp_bind, wp_zoom. eapply wp_mono; [apply next_msg|].
  assert (U : forall e', GT (xs_eng c) e' -> KY c (set_xs_eng e' c)) by (intros e' H; apply KY_eng, GT_G; assumption).
  intros [[m|]|e|n] e'; cbv beta iota; [|intros H; apply HN, U, H|intros H; apply ypost_fail; auto; lia..].
  intros (H1 & H2 & H3 & H4 & rest & H5 & H6).
  apply (HS m _ rest); auto. apply KY_eng. split; [split; [|split]|]; auto. rewrite H4. apply starts_with_app.
Qed.
Lemma ky_eng_keep c c1 e : KY c c1 -> GT (xs_eng c1) e -> KY c (set_xs_eng e c1).
Proof. intros K H. eapply KY_po; [exact K|]. apply KY_eng, GT_G, H. Qed.

Lemma step_await_cert13 c : xs_state c = ST_AwaitCertificate -> yfacts 7 c -> wp y_await_certificate (ypost c) c.
Proof.
  yintro c Hst F F'. assert (N1 : yr (xs_state c) <> 1) by (rewrite Hst; discriminate).
  unfold y_await_certificate. apply ynext; auto; [rewrite Hst; cbn; lia|..].
  { intros c' K. apply wp_ret, ypost_stay; auto; cbn; lia. }
  intros m c' rest K Ht Hp Hr. pose proof (body13_inv _ _ _ _ _ _ Hp) as Hb.
  destruct (n_body m) as [h|h|es|ctx es|raw|sc sig|vd|b|t]; try (apply wp_panic, ypost_fail; auto; contradiction).
  destruct Hb as [Ty Hc]. rewrite Ty in *. destruct Hr as [-> |Hr]; [|discriminate].
  pose proof (yk_none _ _ F ltac:(lia)) as Hnil. destruct es as [|en es]; cbn [is_nil].
  - apply wp_bind, (yz _ _ c); [apply gt_advance|exact K|]. intros r e1 _ K1.
    destruct r as [[]|e|n]; [|apply ypost_fail; auto; contradiction..].
    apply wp_bind, (yz _ _ c); [apply gt_stop|exact K1|]. intros r e2 _ K2.
    destruct r as [[]|e|n]; [|apply ypost_fail; auto; contradiction..]. apply wp_ret. revert K2. generalize (set_xs_eng e2 (set_xs_eng e1 c')). intros c2 K2.
    split; [left; apply K2|]. split; [|split; [cbn; lia|apply K2]].
    pose proof (yfacts_next 7 _ _ K2 ltac:(discriminate) F) as [F1 F2 F3 F4 F5]. split; cbn [yr]; try lia; [exact F1|].
    intros _. destruct (F5 ltac:(lia)) as (cs & x & y & hs & P1 & P2 & P3 & P4 & P5 & P6).
    exists cs, x, y, hs. do 4 (split; [assumption|]). split; [lia|]. intros _. destruct (P6 ltac:(lia)) as (exp & Q1 & Q2 & Q3 & Q4 & Q5).
    exists exp. split; [exact Q1|]. split; [lia|]. split; [lia|]. split; [|lia]. intros _. left. split; [apply F3; lia|apply Q2; reflexivity].
  - set (ee := en :: es) in *. assert (Hee : map fst ee <> []) by discriminate. clearbody ee.
    apply wp_bind, wp_modify, wp_bind, wp_modify.
    destruct K as [[(Z1 & Z2 & Z3) Z4 Z5 Z6 Z7 Z8 Z9 Z10] Z11].
    match goal with |- wp _ _ ?y => assert (D : exists c2, y = c2 /\ xs_eng c2 = xs_eng c' /\ xs_srtp c2 = xs_srtp c' /\ xs_certs c2 = map fst ee /\
       xs_secret c2 = xs_secret c' /\ xs_events c2 = xs_events c' ++ [LE_PeerCert] /\ xs_hs c2 = xs_hs c' /\ xs_chs c2 = xs_chs c' /\ xs_shs c2 = xs_shs c') end.
    { eexists. split; [reflexivity|]. cbn. rewrite Z5, Hnil. repeat split. }
    destruct D as (c2 & -> & D1 & D2 & D3 & D4 & D5 & D6 & D7 & D8).
    assert (FL : forall c3, KY c2 c3 -> filter is_ck (xs_events c3) = filter is_ck (xs_events c)).
    { intros c3 K3. rewrite (ky_ev _ _ (proj1 K3)), D5, filter_app. cbn. rewrite app_nil_r. exact Z10. }
    assert (FF : forall c3, KY c2 c3 -> yfacts 8 c3).
    { intros c3 K3. destruct K3 as [[(Y1 & Y2 & Y3) Y4 Y5 Y6 Y7 Y8 Y9 Y10] Y11]. rewrite D1 in *. split; try lia.
      - rewrite Y1, Z1. apply F.
      - intros _. destruct (yk_keys _ _ F ltac:(lia)) as (cs & x & y & hs & P1 & P2 & P3 & P4 & P5 & P6).
        exists cs, x, y, hs. rewrite Y2, Z2, Y6, Y7, Y8, D6, D7, D8, Z6, Z7, Z8. do 4 (split; [assumption|]). split; [lia|]. intros _.
        destruct (P6 ltac:(lia)) as (exp & Q1 & Q2 & Q3 & Q4 & Q5). exists exp. rewrite Y11, Z11. split; [exact Q1|]. split; [lia|].
        split; [intros _|split; lia]. rewrite Y9, D4, Z9, Y4, D2, Z4, Y5, D3. eapply client_certs13_grow; [exact Y3|]. rewrite Ht.
        exists (g_transcript (xs_eng c)), (n_raw m), ctx, ee. split; [apply has13_last|]. split; [exact Hc|]. split; [reflexivity|]. split; [exact Hee|]. apply Q2. reflexivity. }
    apply wp_bind, wp_zoom. unfold stop_timers13. apply wp_modify, wp_bind, wp_zoom. unfold advance_peer. apply wp_modify, wp_ret.
    match goal with |- ypost _ _ ?y => assert (K : KY c2 y) end.
    { split; [split; auto; repeat split; apply starts_with_refl|reflexivity]. }
    revert K. match goal with |- KY c2 ?y -> _ => generalize y end. intros c3 K.
    split; [right; exact Hnil|]. split; [apply FF, K|]. split; [cbn; lia|apply FL, K].
Qed.

Lemma step_await_cv13 c : xs_state c = ST_AwaitCertificateVerify -> yfacts 8 c -> wp (y_await_certificate_verify E) (ypost c) c.
Proof.
  yintro c Hst F F'. assert (N1 : yr (xs_state c) <> 1) by (rewrite Hst; discriminate).
  unfold y_await_certificate_verify. apply wp_bind, wp_zoom. eapply wp_mono; [apply transcript_hash_spec|].
  intros r e' [-> Hth]. replace (set_xs_eng (xs_eng c) c) with c by (destruct c; reflexivity).
  destruct r as [th|e|n]; [|apply ypost_fail; auto; try contradiction; apply (po_refl _ KY_po)..]. destruct Hth as (cs & Hcs & ->).
  apply ynext; auto; [rewrite Hst; cbn; lia|..].
  { intros c' K. apply wp_ret, ypost_stay; auto; cbn; lia. }
  intros m c' rest K Ht Hp Hr. pose proof (body13_inv _ _ _ _ _ _ Hp) as Hb.
  destruct (n_body m) as [h|h|es|ctx es|raw|sc sig|vd|b|t]; try (apply wp_panic, ypost_fail; auto; contradiction).
  destruct Hb as [Ty Hc]. rewrite Ty in *. destruct Hr as [-> |Hr]; [|discriminate].
  apply wp_bind, wp_get, wp_bind, wp_zoom. eapply wp_mono; [apply check_cv_spec|]. intros r e' [-> Hv].
  replace (set_xs_eng (xs_eng c') c') with c' by (destruct c'; reflexivity).
  destruct r as [[]|e|n]; [|apply ypost_fail; auto; contradiction..].
  destruct Hv as (leaf & V1 & V2 & V3 & V4).
  destruct K as [[(Z1 & Z2 & Z3) Z4 Z5 Z6 Z7 Z8 Z9 Z10] Z11].
  assert (Q : yfacts 9 c').
  { split; try lia.
    - rewrite Z1. apply F.
    - intros _. destruct (yk_keys _ _ F ltac:(lia)) as (cs' & x & y & hs & P1 & P2 & P3 & P4 & P5 & P6).
      assert (cs' = cs) by congruence. subst cs'. exists cs, x, y, hs. rewrite Z2, Z6, Z7, Z8. do 4 (split; [assumption|]). split; [lia|]. intros _.
      destruct (P6 ltac:(lia)) as (exp & Q1 & Q2 & Q3 & Q4 & Q5). exists exp. rewrite Z11. split; [exact Q1|]. split; [lia|]. split; [lia|].
      split; [intros _; right|lia]. rewrite Z9, Z4, Z5, Ht.
      exists (g_transcript (xs_eng c)), (n_raw m), sc, sig, leaf. split; [apply has13_last|]. split; [exact Hc|].
      split; [rewrite <- Z5; exact V1|]. split; [split; [exact V2|split; [exact V3|exact V4]]|]. apply Q3. reflexivity. }
  apply wp_bind, wp_zoom. unfold advance_peer. apply wp_modify, wp_ret.
  match goal with |- ypost _ _ ?y => assert (K : KY c' y) end.
  { split; [split; auto; repeat split; apply starts_with_refl|reflexivity]. }
  revert K. match goal with |- KY c' ?y -> _ => generalize y end. intros c3 K.
  split; [left; rewrite (ky_certs _ _ (proj1 K)); exact Z5|]. split; [eapply yfacts_next; [exact K|discriminate|exact Q]|].
  split; [cbn; lia|]. cbn [yr]. change (9 <? 10) with true. cbv iota. rewrite (ky_ev _ _ (proj1 K)). exact Z10.
Qed.

Lemma step_await_finished13 c : xs_state c = ST_AwaitFinished -> yfacts 9 c -> wp (y_await_finished E) (ypost c) c.
Proof.
  yintro c Hst F F'. assert (N1 : yr (xs_state c) <> 1) by (rewrite Hst; discriminate). assert (KR : KY c c) by apply KY_po.
  unfold y_await_finished. apply wp_bind, wp_get, wp_bind, of_opt_spec; [|apply ypost_fail; auto; contradiction]. intros chs Hchs.
  apply wp_bind, wp_zoom. eapply wp_mono; [apply verify_data_spec|].
  intros r e' [-> Hvd]. replace (set_xs_eng (xs_eng c) c) with c by (destruct c; reflexivity).
  destruct r as [expected|e|n]; [|apply ypost_fail; auto; contradiction..]. destruct Hvd as (cs & Hcs & Hvd).
  apply ynext; auto; [rewrite Hst; cbn; lia|..].
  { intros c' K. apply wp_ret, ypost_stay; auto; cbn; lia. }
  intros m c' rest K Ht Hp Hr. pose proof (body13_inv _ _ _ _ _ _ Hp) as Hb.
  destruct (n_body m) as [h|h|es|ctx es|raw|sc sig|vd|b|t]; try (apply wp_panic, ypost_fail; auto; contradiction).
  destruct Hb as [Ty Hc]. rewrite Ty in *. destruct Hr as [-> |Hr]; [|discriminate]. rewrite app_nil_r in Hc. subst vd.
  destruct (beqb (n_raw m) expected) eqn:Hv; cbn [negb]; [|apply wp_fail, ypost_fail; auto; contradiction].
  apply beqb_eq in Hv. rewrite Hv in *.
  apply wp_bind, (yz _ _ c); [apply gt_advance|exact K|]. intros r e1 G1 K1.
  destruct r as [[]|e|n]; [|apply ypost_fail; auto; contradiction..].
  apply wp_bind, (yz _ _ c); [apply gt_send_ack_ret|exact K1|]. intros r e2 G2 K2.
  destruct r as [[]|e|n]; [|apply ypost_fail; auto; contradiction..].
  apply wp_bind, (yz _ _ c); [apply gt_stop|exact K2|]. intros r e3 G3 K3.
  destruct r as [[]|e|n]; [|apply ypost_fail; auto; contradiction..].
  match goal with |- wp _ _ ?y => assert (D : exists c2, y = c2 /\ KY c c2 /\ g_transcript (xs_eng c2) = g_transcript (xs_eng c) ++ tmsg13 MT_Finished expected) end.
  { eexists. split; [reflexivity|]. split; [exact K3|]. destruct G1 as (_ & _ & A1 & _), G2 as (_ & _ & A2 & _), G3 as (_ & _ & A3 & _).
    cbn [xs_eng set_xs_eng] in *. rewrite A3, A2, A1. exact Ht. }
  destruct D as (c2 & -> & KD & T2). clear K1 K2 K3 G1 G2 G3 e1 e2 e3.
  apply wp_bind, wp_modify, wp_bind, wp_zoom.
  destruct KD as [[(Z1 & Z2 & Z3) Z4 Z5 Z6 Z7 Z8 Z9 Z10] Z11].
  eapply wp_mono; [apply (keying_spec E _ _ cs); cbn [xs_eng set_xs_events]; congruence|]. cbn [xs_eng set_xs_events]. intros r e' (-> & k & -> & Hk).
  apply wp_bind, wp_modify, wp_bind, wp_zoom. unfold release13_retaining. apply wp_modify, wp_ret.
  match goal with |- ypost _ _ ?y => assert (D : exists c3, y = c3 /\ g_cfg (xs_eng c3) = g_cfg (xs_eng c2) /\ g_suite (xs_eng c3) = g_suite (xs_eng c2) /\
    g_transcript (xs_eng c3) = g_transcript (xs_eng c2) /\ g_exp (xs_eng c3) = g_exp (xs_eng c2) /\
    xs_srtp c3 = xs_srtp c2 /\ xs_certs c3 = xs_certs c2 /\ xs_hs c3 = xs_hs c2 /\ xs_chs c3 = xs_chs c2 /\ xs_shs c3 = xs_shs c2 /\ xs_secret c3 = xs_secret c2 /\
    xs_events c3 = (xs_events c2 ++ [LE_Connected]) ++ k) by (eexists; split; [reflexivity|repeat split]) end.
  destruct D as (c3 & -> & D1 & D2 & D3 & D4 & D5 & D6 & D7 & D8 & D9 & D10 & D11).
  destruct (yk_keys _ _ F ltac:(lia)) as (cs' & x & y & hs & P1 & P2 & P3 & P4 & P5 & P6).
  assert (cs' = cs) by congruence. subst cs'. assert (x = chs) by congruence. subst x.
  destruct (P6 ltac:(lia)) as (exp & Q1 & Q2 & Q3 & Q4 & Q5).
  split; [left; rewrite D6; exact Z5|]. split; [|split; [cbn; lia|]].
  - split; cbn [yr]; try lia.
    + rewrite D1, Z1. apply F.
    + intros _. exists cs, chs, y, hs. rewrite D2, Z2, D7, Z6, D8, Z7, D9, Z8. do 4 (split; [assumption|]). split; [lia|]. intros _.
      exists exp. rewrite D4, Z11. split; [exact Q1|]. split; [lia|]. split; [lia|]. split; [lia|]. intros _.
      rewrite D10, Z9, D5, Z4, D6, Z5, D3, T2. exists (g_transcript (xs_eng c)), expected. split; [apply has13_last|]. split; [exact Hvd|].
      apply Q4. reflexivity.
  - change (yr ST_AwaitApplicationData <? 10) with false. cbv iota.
    exists k. rewrite D11, !filter_app. cbn [filter is_ck]. rewrite Z10, <- app_assoc. cbn [app].
    destruct Hk as [-> |(prof & km & exp' & R1 & -> & R2 & R3)]; [split; auto|].
    split; [reflexivity|]. right. exists km, prof, cs, exp'. split; [reflexivity|]. rewrite D5, Z4, D2, Z2, D4, Z11. rewrite Z11 in R2. auto.
Qed.

Theorem y_step_early c : yr (xs_state c) < 10 -> yfacts (yr (xs_state c)) c -> wp (y_step E (xs_state c)) (ypost c) c.
Proof.
  intros Hn F. destruct (xs_state c) eqn:Hst; cbn [y_step]; try (exfalso; cbn in Hn; lia).
  - apply step_await_client_hello; assumption.
  - apply step_send_server_hello; assumption.
  - apply step_send_ee; assumption.
  - apply step_send_cr; assumption.
  - apply step_send_cert13; assumption.
  - apply step_send_cv13; assumption.
  - apply step_send_finished13; assumption.
  - apply step_await_cert13; assumption.
  - apply step_await_cv13; assumption.
  - apply step_await_finished13; assumption.
Qed.
End ServerFacts.
