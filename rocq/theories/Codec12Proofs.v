(** Round trips of the DTLS 1.2 message codecs, and what every accepted byte
    string looks like. *)
From Verif Require Import Prelude PreludeFacts Types Codec CodecProofs Codec12.
From Coq Require Import ZifyBool ZifyNat ZifyN.
Ltac Zify.zify_post_hook ::= Z.div_mod_to_equations.

(** Take apart a successful parse, step by step. *)
Ltac pinv E :=
  repeat match type of E with
  | Some _ = Some _ => injection E; clear E; intros; subst
  | None = Some _ => discriminate E
  | match p_u8 ?l with _ => _ end = _ =>
      let P := fresh "P" in destruct (p_u8 l) as [[? ?]|] eqn:P; [|discriminate E];
      apply p_u8_inv in P as (? & ? & ?); [subst|assumption]
  | match p_u16 ?l with _ => _ end = _ =>
      let P := fresh "P" in destruct (p_u16 l) as [[? ?]|] eqn:P; [|discriminate E];
      apply p_u16_inv in P as (? & ? & ?); [subst|assumption]
  | match p_u24 ?l with _ => _ end = _ =>
      let P := fresh "P" in destruct (p_u24 l) as [[? ?]|] eqn:P; [|discriminate E];
      apply p_u24_inv in P as (? & ? & ?); [subst|assumption]
  | match take ?n ?l with _ => _ end = _ =>
      let P := fresh "P" in destruct (take n l) as [[? ?]|] eqn:P; [|discriminate E];
      apply take_inv in P as (? & ? & ? & ?); [subst|assumption]
  | match p_vec ?n ?l with _ => _ end = _ =>
      let P := fresh "P" in destruct (p_vec n l) as [[? ?]|] eqn:P; [|discriminate E];
      apply p_vec_inv in P as (? & ? & ? & ?); [subst|assumption]
  end.

Lemma p_sid_app : forall sid r, (length sid <= 32)%nat -> p_sid (s_vec 1 sid ++ r) = Some (sid, r).
Proof.
  intros sid r H. unfold p_sid, s_vec. rewrite <- app_assoc, p_u8_app by (unfold len; lia).
  destruct (N.ltb_spec 32 (len sid)); [unfold len in *; lia|].
  unfold len. rewrite Nat2N.id. apply take_app.
Qed.

Lemma p_sid_inv : forall l sid r, bytes_ok l -> p_sid l = Some (sid, r) ->
  l = s_vec 1 sid ++ r /\ (length sid <= 32)%nat /\ bytes_ok sid /\ bytes_ok r.
Proof.
  intros l sid r H E. unfold p_sid in E. pinv E.
  destruct (N.ltb_spec 32 n); [discriminate|].
  apply take_inv in E as (-> & HL & ? & ?); auto.
  assert (n = len sid) as -> by (unfold len; lia). unfold s_vec. rewrite <- app_assoc.
  unfold len in *. repeat split; auto. lia.
Qed.

Lemma p_cookie_app : forall c r, len c < 256 -> p_cookie (s_vec 1 c ++ r) = Some (c, r).
Proof. intros. apply p_vec_app. cbn; lia. Qed.

(** A list of 16-bit values with its byte length in front. *)
Lemma len_items : forall k vs, len (s_items k vs) = N.of_nat k * len vs.
Proof. intros. unfold len. rewrite s_items_length. lia. Qed.

Lemma p_vec_items : forall k j vs r, N.of_nat k * len vs < 256 ^ N.of_nat j ->
  p_vec j (be j (N.of_nat k * len vs) ++ s_items k vs ++ r) = Some (s_items k vs, r).
Proof.
  intros k j vs r H. pose proof (p_vec_app j (s_items k vs) r) as P. unfold s_vec in P.
  rewrite len_items in P. rewrite <- app_assoc in P. apply P. assumption.
Qed.

(** ** ClientHello *)

(** Wire-level ranges of a ClientHello's fields. *)
Definition ch12_wire_ok (c : ClientHello12) : Prop :=
  ch_version c < 65536 /\ length (ch_random c) = 32%nat /\ (length (ch_sid c) <= 32)%nat /\
  len (ch_cookie c) < 256 /\
  Forall (fun s => s < 65536) (ch_suites c) /\ 2 * len (ch_suites c) < 65536 /\
  Forall (fun s => s < 256) (ch_comps c) /\ len (ch_comps c) < 256 /\
  Forall ext_ok (ch_exts c) /\ len (s_exts (ch_exts c)) < 65536.

(** What the receiver keeps of it: the known suites, the null compression method
    and the known extensions. *)
Definition ch12_known (c : ClientHello12) : ClientHello12 :=
  mkCH12 (ch_version c) (ch_random c) (ch_sid c) (ch_cookie c)
    (filter (fun s => memN s suites12_supported) (ch_suites c))
    (filter (fun m => m =? 0) (ch_comps c))
    (kept ext12_supported (ch_exts c)).

Lemma p_ch12_exts_s : forall es, Forall ext_ok es -> len (s_exts es) < 65536 ->
  NoDup (map fst (kept ext12_supported es)) ->
  p_ch12_exts (match es with [] => [] | e :: r => s_vec 2 (s_exts (e :: r)) end) =
  Some (kept ext12_supported es, []).
Proof.
  intros es Hok HL HN. destruct es as [|e es]; [reflexivity|].
  set (d := s_exts (e :: es)) in *. unfold p_ch12_exts.
  destruct (s_vec 2 d) eqn:Ev; [unfold s_vec in Ev; rewrite be_length in Ev || (apply (f_equal (@length N)) in Ev; rewrite app_length, be_length in Ev; cbn in Ev; lia)|].
  rewrite <- Ev. unfold s_vec. rewrite p_u16_app by assumption.
  destruct (N.eqb_spec (len d) 0) as [Z|Z].
  - exfalso. unfold d in Z. cbn [s_exts flat_map] in Z. unfold len in Z. rewrite app_length, s_ext_length in Z. lia.
  - unfold len at 1. rewrite Nat2N.id. rewrite <- (app_nil_r d) at 2. rewrite take_app.
    unfold d. rewrite p_exts_s by assumption. reflexivity.
Qed.

Lemma p_ch12_exts_dup : forall es, Forall ext_ok es -> len (s_exts es) < 65536 ->
  ~ NoDup (map fst (kept ext12_supported es)) ->
  p_ch12_exts (match es with [] => [] | e :: r => s_vec 2 (s_exts (e :: r)) end) = None.
Proof.
  intros es Hok HL HN. destruct es as [|e es]; [exfalso; apply HN; constructor|].
  set (d := s_exts (e :: es)) in *. unfold p_ch12_exts.
  destruct (s_vec 2 d) eqn:Ev; [apply (f_equal (@length N)) in Ev; rewrite s_vec_length in Ev; cbn in Ev; lia|].
  rewrite <- Ev. unfold s_vec. rewrite p_u16_app by assumption.
  destruct (N.eqb_spec (len d) 0) as [Z|Z].
  - exfalso. unfold d in Z. cbn [s_exts flat_map] in Z. unfold len in Z. rewrite app_length, s_ext_length in Z. lia.
  - unfold len at 1. rewrite Nat2N.id. rewrite <- (app_nil_r d) at 2. rewrite take_app.
    unfold d. rewrite p_exts_dup by assumption. reflexivity.
Qed.

Lemma p_ch12_head : forall c, ch12_wire_ok c ->
  (0 < length (ch_suites (ch12_known c)) <= 4)%nat -> length (ch_comps (ch12_known c)) = 1%nat ->
  p_ch12 (s_ch12 c) =
  match p_ch12_exts (match ch_exts c with [] => [] | e :: r => s_vec 2 (s_exts (e :: r)) end) with
  | Some (es, l) => Some (mkCH12 (ch_version c) (ch_random c) (ch_sid c) (ch_cookie c)
                            (ch_suites (ch12_known c)) (ch_comps (ch12_known c)) es, l)
  | None => None
  end.
Proof.
  intros c (H1 & H2 & H3 & H4 & H5 & H6 & H7 & H8 & H9 & H10) HS HC.
  unfold p_ch12, s_ch12. rewrite p_u16_app by assumption. rewrite take_app_n by assumption.
  rewrite p_sid_app by assumption. rewrite p_cookie_app by assumption.
  change (2 * len (ch_suites c)) with (N.of_nat 2 * len (ch_suites c)). rewrite (p_vec_items 2 2) by exact H6.
  rewrite p_list1_s; [|lia|exact H5|exact HS].
  replace (len (ch_comps c)) with (N.of_nat 1 * len (ch_comps c)) by lia.
  rewrite (p_vec_items 1 1) by (change (N.of_nat 1 * len (ch_comps c) < 256); lia).
  rewrite p_list1_s; [|lia|exact H7|].
  2: { unfold ch12_known in HC. cbn [ch_comps] in HC. rewrite HC. lia. }
  reflexivity.
Qed.

Lemma p_ch12_s : forall c, ch12_wire_ok c ->
  (0 < length (ch_suites (ch12_known c)) <= 4)%nat -> length (ch_comps (ch12_known c)) = 1%nat ->
  NoDup (map fst (ch_exts (ch12_known c))) ->
  p_ch12 (s_ch12 c) = Some (ch12_known c, []).
Proof.
  intros c Hw HS HC HN. rewrite p_ch12_head by assumption.
  destruct Hw as (H1 & H2 & H3 & H4 & H5 & H6 & H7 & H8 & H9 & H10).
  rewrite p_ch12_exts_s by assumption. reflexivity.
Qed.

Lemma p_ch12_dup : forall c, ch12_wire_ok c ->
  (0 < length (ch_suites (ch12_known c)) <= 4)%nat -> length (ch_comps (ch12_known c)) = 1%nat ->
  ~ NoDup (map fst (ch_exts (ch12_known c))) -> p_ch12 (s_ch12 c) = None.
Proof.
  intros c Hw HS HC HN. rewrite p_ch12_head by assumption.
  destruct Hw as (H1 & H2 & H3 & H4 & H5 & H6 & H7 & H8 & H9 & H10).
  rewrite p_ch12_exts_dup by assumption. reflexivity.
Qed.

(** Every accepted ClientHello is the encoding of one, up to unknown suites,
    compression methods and extensions, and an explicit empty extension block. *)
Lemma p_ch12_exts_inv : forall l es r, bytes_ok l -> p_ch12_exts l = Some (es, r) ->
  exists all, Forall ext_ok all /\ es = kept ext12_supported all /\ NoDup (map fst es) /\
    len (s_exts all) < 65536 /\
    (l = s_vec 2 (s_exts all) ++ r \/ (all = [] /\ l = r)).
Proof.
  intros l es r H E. unfold p_ch12_exts in E. destruct l as [|x l].
  - inversion E; subst. exists []. repeat split; auto; try constructor.
  - pinv E. destruct (N.eqb_spec n 0) as [->|Hn].
    + inversion E; subst. exists []. repeat split; auto; try constructor.
    + pinv E. destruct (p_exts ext12_supported _) as [es'|] eqn:E2; [|discriminate].
      apply p_exts_inv in E2 as (all & -> & Hall & -> & HN); auto. inversion E; subst.
      exists all. repeat split; auto.
      * unfold len; lia.
      * left. rewrite H0. unfold s_vec. rewrite <- app_assoc. f_equal. f_equal. unfold len. lia.
Qed.

Lemma p_ch12_inv : forall l c r, bytes_ok l -> p_ch12 l = Some (c, r) ->
  exists c0, ch12_wire_ok c0 /\ c = ch12_known c0 /\
    (0 < length (ch_suites c) <= 4)%nat /\ ch_comps c = [0] /\ NoDup (map fst (ch_exts c)) /\
    (l = s_ch12 c0 ++ r \/ (ch_exts c0 = [] /\ l = s_ch12 c0 ++ [0; 0] ++ r)).
Proof.
  intros l c r H E. unfold p_ch12 in E. pinv E.
  destruct (p_sid _) as [[sid l4]|] eqn:P1; [|discriminate].
  apply p_sid_inv in P1 as (-> & ? & ? & ?); auto.
  unfold p_cookie in E. pinv E.
  destruct (p_list1 2 _ 4 _) as [ss|] eqn:P2; [|discriminate].
  apply p_list1_inv in P2 as [HN0 P2]. pose proof P2 as P2k. apply p_list_kept in P2k.
  apply p_list_inv in P2 as (Hcap & ssall & -> & -> & Hss); auto. pinv E.
  destruct (p_list1 1 _ 1 _) as [cs|] eqn:P3; [|discriminate].
  apply p_list1_inv in P3 as [HN1 P3]. pose proof P3 as P3k. apply p_list_kept in P3k.
  apply p_list_inv in P3 as (Hcap1 & csall & -> & -> & Hcs); auto.
  destruct (p_ch12_exts _) as [[es r']|] eqn:P4; [|discriminate].
  apply p_ch12_exts_inv in P4 as (all & Hall & -> & HND & HLen & Hcases); auto.
  injection E as <- <-.
  exists (mkCH12 n l sid b ssall csall all).
  rewrite len_items in *. change (256 ^ N.of_nat 1) with 256 in *. change (256 ^ N.of_nat 2) with 65536 in *.
  split; [|split; [|split; [|split; [|split]]]].
  - unfold ch12_wire_ok. cbn [ch_version ch_random ch_sid ch_cookie ch_suites ch_comps ch_exts].
    repeat split; auto; try lia.
  - reflexivity.
  - cbn [ch_suites]. destruct (filter _ ssall); [congruence|]. cbn [length] in *. lia.
  - cbn [ch_comps]. destruct (filter (fun c => c =? 0) csall) as [|x1 [|x2 t]] eqn:EF; [congruence| |cbn in Hcap1; lia].
    inversion P3k; subst. f_equal. lia.
  - assumption.
  - cbn [ch_exts]. unfold s_ch12, s_vec.
    cbn [ch_version ch_random ch_sid ch_cookie ch_suites ch_comps ch_exts].
    rewrite !len_items, <- !app_assoc.
    replace (N.of_nat 2 * len ssall) with (2 * len ssall) by lia.
    replace (N.of_nat 1 * len csall) with (len csall) by lia.
    destruct Hcases as [->|[-> ->]].
    + destruct all as [|e all]; [right|left].
      * split; [reflexivity|]. cbn. repeat f_equal. 
      * reflexivity.
    + left. reflexivity.
Qed.

(** ** ServerHello *)
Definition sh12_exts_list (h : ServerHello12) : list (N * bytes) :=
  match sh_exts h with Some es => es | None => [] end.
Definition sh12_wire_ok (h : ServerHello12) : Prop :=
  sh_version h < 65536 /\ length (sh_random h) = 32%nat /\ (length (sh_sid h) <= 32)%nat /\
  sh_suite h < 65536 /\ sh_comp h < 256 /\
  Forall ext_ok (sh12_exts_list h) /\ len (s_exts (sh12_exts_list h)) < 65536 /\
  sh_exts h <> Some [].
Definition sh12_known (h : ServerHello12) : ServerHello12 :=
  mkSH12 (sh_version h) (sh_random h) (sh_sid h) (sh_suite h) (sh_comp h)
    (match sh_exts h with Some es => Some (kept ext12_supported es) | None => None end).

Lemma s_vec_cons : forall k v, (0 < k)%nat -> exists x t, s_vec k v = x :: t.
Proof.
  intros k v Hk. destruct (s_vec k v) eqn:E; eauto.
  apply (f_equal (@length N)) in E. rewrite s_vec_length in E. cbn in E; lia.
Qed.

Lemma p_sh12_gen : forall h, sh12_wire_ok h ->
  p_sh12 (s_sh12 h) =
  match sh_exts h with
  | None => Some (sh12_known h, [])
  | Some es => match p_exts ext12_supported (s_exts es) with
               | Some es' => Some (mkSH12 (sh_version h) (sh_random h) (sh_sid h) (sh_suite h)
                                     (sh_comp h) (Some es'), [])
               | None => None
               end
  end.
Proof.
  intros h (H1 & H2 & H3 & H4 & H5 & H6 & H7 & H8). unfold p_sh12, s_sh12, sh12_exts_list, sh12_known in *.
  rewrite p_u16_app by assumption. rewrite take_app_n by assumption.
  rewrite p_sid_app by assumption. rewrite p_u16_app by assumption. rewrite p_u8_app by assumption.
  destruct (sh_exts h) as [es|]; [|reflexivity].
  destruct (s_vec_cons 2 (s_exts es)) as (x & t & Ev); [lia|]. rewrite Ev, <- Ev.
  unfold s_vec at 1. rewrite p_u16_app by assumption.
  destruct (N.eqb_spec (len (s_exts es)) 0) as [Z|Z].
  - exfalso. destruct es as [|e es]; [congruence|]. cbn [s_exts flat_map] in Z.
    unfold len in Z. rewrite app_length, s_ext_length in Z. lia.
  - unfold len at 1. rewrite Nat2N.id. rewrite <- (app_nil_r (s_exts es)) at 2. rewrite take_app.
    reflexivity.
Qed.

Lemma p_sh12_s : forall h, sh12_wire_ok h ->
  NoDup (map fst (sh12_exts_list (sh12_known h))) ->
  p_sh12 (s_sh12 h) = Some (sh12_known h, []).
Proof.
  intros h H HN. rewrite p_sh12_gen by assumption.
  destruct H as (H1 & H2 & H3 & H4 & H5 & H6 & H7 & H8).
  unfold sh12_exts_list, sh12_known in *. cbn [sh_exts] in *.
  destruct (sh_exts h) as [es|]; [|reflexivity]. rewrite p_exts_s by assumption. reflexivity.
Qed.

Lemma p_sh12_dup : forall h, sh12_wire_ok h ->
  ~ NoDup (map fst (sh12_exts_list (sh12_known h))) -> p_sh12 (s_sh12 h) = None.
Proof.
  intros h H HN. rewrite p_sh12_gen by assumption.
  destruct H as (H1 & H2 & H3 & H4 & H5 & H6 & H7 & H8).
  unfold sh12_exts_list, sh12_known in *. cbn [sh_exts] in *.
  destruct (sh_exts h) as [es|]; [|exfalso; apply HN; constructor].
  rewrite p_exts_dup by assumption. reflexivity.
Qed.

(** ** Small messages *)
Lemma p_hvr12_s : forall v c, v < 65536 -> (0 < length c < 256)%nat ->
  p_hvr12 (s_hvr12 (v, c)) = Some ((v, c), []).
Proof.
  intros v c H1 H2. unfold p_hvr12, s_hvr12. cbn [fst snd]. rewrite p_u16_app by assumption.
  rewrite <- (app_nil_r (s_vec 1 c)), p_cookie_app by (unfold len; lia).
  destruct c; [cbn in H2; lia|reflexivity].
Qed.

Lemma p_cert12_s : forall (cs : list bytes), Forall (fun c => len c < 2^24) cs -> (length cs <= 32)%nat ->
  len (s_vecs 3 cs) < 2^24 -> p_cert12 (s_cert12 cs) = Some (cs, []).
Proof.
  intros cs H1 H2 H3. unfold p_cert12, s_cert12.
  rewrite <- (app_nil_r (s_vec 3 _)), p_vec_app by exact H3.
  rewrite p_vecs_s; [|lia| |lia].
  - destruct (Nat.leb_spec (length cs) 32); [reflexivity|lia].
  - eapply Forall_impl; [|exact H1]. intros c Hc. split; [exact Hc|lia].
Qed.

Lemma p_signed12_s : forall a s r, a < 65536 -> len s < 65536 ->
  p_signed12 (s_signed12 (a, s) ++ r) = Some ((a, s), r).
Proof.
  intros a s r H1 H2. unfold p_signed12, s_signed12. cbn [fst snd].
  rewrite <- app_assoc, p_u16_app by assumption. rewrite p_vec_app by exact H2. reflexivity.
Qed.

Lemma p_cr12_s : forall ts ss (auths : list bytes),
  Forall (fun t => t < 256) ts -> len ts < 256 -> length (filter (fun t => t =? 64) ts) = 1%nat ->
  Forall (fun a => a < 65536) ss -> 2 * len ss < 65536 ->
  (length (filter (fun a => memN a sigalgs12_supported) ss) <= 4)%nat ->
  Forall (fun a => len a < 65536 /\ (1 <= length a)%nat) auths -> (length auths <= 32)%nat ->
  len (s_vecs 2 auths) < 65536 ->
  p_cr12 (s_cr12 (mkCR12 ts ss auths)) =
  Some (mkCR12 (filter (fun t => t =? 64) ts) (filter (fun a => memN a sigalgs12_supported) ss) auths, []).
Proof.
  intros ts ss auths H1 H2 H3 H4 H5 H6 H7 H8 H9. unfold p_cr12, s_cr12. cbn [cr_types cr_sigalgs cr_auths].
  replace (len ts) with (N.of_nat 1 * len ts) by lia.
  rewrite (p_vec_items 1 1) by (change (N.of_nat 1 * len ts < 256); lia).
  rewrite p_list1_s; [|lia|exact H1|lia].
  change (2 * len ss) with (N.of_nat 2 * len ss). rewrite (p_vec_items 2 2) by exact H5.
  rewrite p_list_s; [|lia|exact H4|exact H6].
  rewrite <- (app_nil_r (s_vec 2 _)), p_vec_app by exact H9.
  rewrite p_vecs_s; [|lia|exact H7|lia].
  destruct (Nat.leb_spec (length auths) 32); [reflexivity|lia].
Qed.

Lemma p_ske12_ecdh_s : forall c g pk a sg, c < 256 -> g < 65536 -> len pk < 256 ->
  a < 65536 -> len sg < 65536 ->
  p_ske12 KX_ECDHE (s_ske12 true (SKE_ecdh c g pk (Some (a, sg)))) =
  Some (SKE_ecdh c g pk (Some (a, sg)), []).
Proof.
  intros. unfold p_ske12, s_ske12. rewrite p_u8_app, p_u16_app by assumption.
  rewrite p_vec_app by (change (len pk < 256); assumption).
  destruct (s_signed12 (a, sg)) eqn:E.
  - apply (f_equal (@length N)) in E. unfold s_signed12 in E. rewrite app_length, be_length in E. cbn in E; lia.
  - rewrite <- E. rewrite <- (app_nil_r (s_signed12 _)), p_signed12_s by assumption. reflexivity.
Qed.

Lemma p_ske12_psk_s : forall h, len h < 65536 ->
  p_ske12 KX_PSK (s_ske12 true (SKE_psk h)) = Some (SKE_psk h, []).
Proof.
  intros. unfold p_ske12, s_ske12. rewrite <- (app_nil_r (s_vec 2 h)), p_vec_app by exact H. reflexivity.
Qed.

Lemma p_cke12_ecdh_s : forall pk, len pk < 256 ->
  p_cke12 KX_ECDHE (s_cke12 (CKE_ecdh pk)) = Some (CKE_ecdh pk, []).
Proof. intros. unfold p_cke12, s_cke12. rewrite <- (app_nil_r (s_vec 1 pk)), p_vec_app by exact H. reflexivity. Qed.
Lemma p_cke12_psk_s : forall i, len i < 65536 ->
  p_cke12 KX_PSK (s_cke12 (CKE_psk i)) = Some (CKE_psk i, []).
Proof. intros. unfold p_cke12, s_cke12. rewrite <- (app_nil_r (s_vec 2 i)), p_vec_app by exact H. reflexivity. Qed.

(** ** Extension payloads *)
Lemma take_items : forall k vs, take (N.to_nat (N.of_nat k * len vs)) (s_items k vs) = Some (s_items k vs, []).
Proof.
  intros. replace (s_items k vs) with (s_items k vs ++ []) at 1 by apply app_nil_r.
  apply take_app_n. rewrite s_items_length. unfold len. lia.
Qed.

Lemma p_groups12_s : forall gs, Forall (fun g => g < 65536) gs -> 2 * len gs < 65536 ->
  (length (filter (fun g => memN g named_groups_supported) gs) <= 4)%nat ->
  p_groups12 (s_groups12 gs) = Some (filter (fun g => memN g named_groups_supported) gs).
Proof.
  intros gs H1 H2 H3. unfold p_groups12, s_groups12. rewrite p_u16_app by assumption.
  replace (negb ((2 * len gs) mod 2 =? 0)) with false by lia.
  change (2 * len gs) with (N.of_nat 2 * len gs). rewrite take_items. apply p_list_s; auto; lia.
Qed.

Lemma p_sigalgs12_s : forall a, a <> [] -> Forall (fun g => g < 65536) a -> 2 * len a < 65536 ->
  (length (filter (fun g => memN g sigalgs12_supported) a) <= 4)%nat ->
  p_sigalgs12 (s_sigalgs12 a) = Some (filter (fun g => memN g sigalgs12_supported) a).
Proof.
  intros a H0 H1 H2 H3. unfold p_sigalgs12, s_sigalgs12. rewrite p_u16_app by assumption.
  assert (0 < len a) by (destruct a; [congruence|unfold len; cbn; lia]).
  replace ((2 * len a =? 0) || negb ((2 * len a) mod 2 =? 0)) with false by lia.
  change (2 * len a) with (N.of_nat 2 * len a). rewrite take_items. apply p_list_s; auto; lia.
Qed.

Lemma p_points12_s : forall fs, Forall (fun f => f < 256) fs -> len fs < 256 ->
  (length (filter (fun f => (f <=? 2)%N) fs) <= 3)%nat ->
  p_points12 (s_points12 fs) = Some (filter (fun f => f <=? 2) fs).
Proof.
  intros fs H1 H2 H3. unfold p_points12, s_points12.
  rewrite <- (app_nil_r (s_items 1 fs)). replace (len fs) with (N.of_nat 1 * len fs) by lia.
  rewrite (p_vec_items 1 1) by (change (N.of_nat 1 * len fs < 256); lia). apply p_list_s; auto; lia.
Qed.

Lemma p_srtp_s : forall ps mki, Forall (fun p => p < 65536) ps -> 2 * len ps < 65536 ->
  (length (filter (fun p => memN p srtp_known) ps) <= 3)%nat -> len mki < 256 ->
  p_srtp (s_srtp ps mki) = Some (filter (fun p => memN p srtp_known) ps, mki).
Proof.
  intros ps mki H1 H2 H3 H4. unfold p_srtp, s_srtp.
  change (2 * len ps) with (N.of_nat 2 * len ps). rewrite (p_vec_items 2 2) by exact H2.
  rewrite p_list_s by (auto; lia).
  rewrite <- (app_nil_r (s_vec 1 mki)), p_vec_app by exact H4. reflexivity.
Qed.
