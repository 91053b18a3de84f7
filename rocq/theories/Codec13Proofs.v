(** Round trips of the DTLS 1.3 message codecs, and what accepted hello messages
    look like. *)
From Verif Require Import Prelude PreludeFacts Types Codec CodecProofs Codec12 Codec12Proofs Codec13.
From Coq Require Import ZifyBool ZifyNat ZifyN.
Ltac Zify.zify_post_hook ::= Z.div_mod_to_equations.

Lemma kept13_length : forall es : list (N * bytes), NoDup (map fst (kept ext13_supported es)) ->
  (length (kept ext13_supported es) <= 6)%nat.
Proof.
  intros es HN. rewrite <- (map_length fst).
  apply (NoDup_incl_length HN (l' := [X_VERSIONS; X_GROUPS; X_SIGALGS; X_KEYSHARE; X_SRTP; X_COOKIE])).
  intros t HI. apply in_map_iff in HI as (e & <- & HI). unfold kept in HI.
  apply filter_In in HI as [_ HI]. apply memN_In. exact HI.
Qed.

Lemma p_exts_cap_s : forall cap es, Forall ext_ok es -> NoDup (map fst (kept ext13_supported es)) ->
  (length (kept ext13_supported es) <= cap)%nat ->
  p_exts_cap cap (s_exts es) = Some (kept ext13_supported es).
Proof.
  intros. unfold p_exts_cap. rewrite p_exts_s by assumption.
  destruct (Nat.leb_spec (length (kept ext13_supported es)) cap); [reflexivity|lia].
Qed.

Lemma p_exts_cap_dup : forall cap es, Forall ext_ok es -> ~ NoDup (map fst (kept ext13_supported es)) ->
  p_exts_cap cap (s_exts es) = None.
Proof. intros. unfold p_exts_cap. rewrite p_exts_dup by assumption. reflexivity. Qed.

Lemma p_exts_cap_inv : forall cap l es, bytes_ok l -> p_exts_cap cap l = Some es ->
  exists all, l = s_exts all /\ Forall ext_ok all /\ es = kept ext13_supported all /\
    NoDup (map fst es).
Proof.
  intros cap l es H E. unfold p_exts_cap in E.
  destruct (p_exts ext13_supported l) as [es'|] eqn:E1; [|discriminate].
  destruct (Nat.leb (length es') cap); [|discriminate]. inversion E; subst.
  apply p_exts_inv in E1 as (all & H1 & H2 & -> & H3); eauto.
Qed.

(** ** ClientHello *)
Definition ch13_wire_ok (c : ClientHello13) : Prop :=
  h_version c < 65536 /\ length (h_random c) = 32%nat /\ (length (h_sid c) <= 32)%nat /\
  len (h_cookie c) < 256 /\
  h_suites c <> [] /\ Forall (fun s => s < 65536) (h_suites c) /\ 2 * len (h_suites c) < 65536 /\
  Forall (fun s => s < 256) (h_comps c) /\ len (h_comps c) < 256 /\
  Forall ext_ok (h_exts c) /\ len (s_exts (h_exts c)) < 65536.

(** What the receiver keeps: the known suites, the null compression method and
    the known extensions. *)
Definition ch13_known (c : ClientHello13) : ClientHello13 :=
  mkCH13 (h_version c) (h_random c) (h_sid c) (h_cookie c)
    (filter (fun s => memN s suites13_supported) (h_suites c))
    (filter (fun m => m =? 0) (h_comps c))
    (kept ext13_supported (h_exts c)).

Lemma p_ch13_exts_gen : forall es, Forall ext_ok es -> len (s_exts es) < 65536 ->
  p_ch13_exts (match es with [] => [] | e :: r => s_vec 2 (s_exts (e :: r)) end) =
  match es with [] => Some ([], [])
  | _ => match p_exts_cap 8 (s_exts es) with Some es' => Some (es', []) | None => None end end.
Proof.
  intros es Hok HL. destruct es as [|e es]; [reflexivity|].
  set (d := s_exts (e :: es)) in *. unfold p_ch13_exts.
  destruct (s_vec_cons 2 d) as (x & t & Ev); [lia|]. rewrite Ev, <- Ev.
  rewrite <- (app_nil_r (s_vec 2 d)), p_vec_app by exact HL. reflexivity.
Qed.

Lemma p_ch13_head : forall ok c, ch13_wire_ok c ->
  (length (h_suites (ch13_known c)) <= 3)%nat ->
  (ok = false -> h_suites (ch13_known c) <> []) -> length (h_comps (ch13_known c)) = 1%nat ->
  p_ch13 ok (s_ch13 c) =
  match p_ch13_exts (match h_exts c with [] => [] | e :: r => s_vec 2 (s_exts (e :: r)) end) with
  | Some (es, l) => Some (mkCH13 (h_version c) (h_random c) (h_sid c) (h_cookie c)
                            (h_suites (ch13_known c)) (h_comps (ch13_known c)) es, l)
  | None => None
  end.
Proof.
  intros ok c (H1 & H2 & H3 & H4 & H0 & H5 & H6 & H7 & H8 & H9 & H10) HS HO HC.
  unfold p_ch13, s_ch13. rewrite p_u16_app by assumption. rewrite take_app_n by assumption.
  rewrite p_sid_app by assumption. rewrite p_cookie_app by assumption.
  rewrite p_u16_app by assumption.
  assert (0 < len (h_suites c)) by (destruct (h_suites c); [congruence|unfold len; cbn; lia]).
  replace ((2 * len (h_suites c) =? 0) || negb ((2 * len (h_suites c)) mod 2 =? 0)) with false by lia.
  rewrite take_app_n by (rewrite s_items_length; unfold len; lia).
  assert ((if ok then p_list else p_list1) 2%nat (fun s => memN s suites13_supported) 3%nat
            (s_items 2 (h_suites c)) = Some (h_suites (ch13_known c))) as ->.
  { destruct ok; [apply p_list_s; auto; lia|]. apply p_list1_s; [lia|exact H5|].
    unfold ch13_known in HO, HS. cbn [h_suites] in HO, HS. split; [|exact HS].
    destruct (filter _ (h_suites c)); [exfalso; apply HO; reflexivity|cbn; lia]. }
  replace (len (h_comps c)) with (N.of_nat 1 * len (h_comps c)) by lia.
  rewrite (p_vec_items 1 1) by (change (N.of_nat 1 * len (h_comps c) < 256); lia).
  rewrite p_list1_s; [|lia|exact H7|].
  2: { unfold ch13_known in HC. cbn [h_comps] in HC. rewrite HC. lia. }
  reflexivity.
Qed.

Lemma p_ch13_s : forall ok c, ch13_wire_ok c ->
  (length (h_suites (ch13_known c)) <= 3)%nat ->
  (ok = false -> h_suites (ch13_known c) <> []) -> length (h_comps (ch13_known c)) = 1%nat ->
  NoDup (map fst (h_exts (ch13_known c))) ->
  p_ch13 ok (s_ch13 c) = Some (ch13_known c, []).
Proof.
  intros ok c Hw HS HO HC HN. rewrite p_ch13_head by assumption.
  destruct Hw as (H1 & H2 & H3 & H4 & H0 & H5 & H6 & H7 & H8 & H9 & H10).
  rewrite p_ch13_exts_gen by assumption. unfold ch13_known in *. cbn [h_exts h_suites h_comps] in *.
  destruct (h_exts c) as [|e es]; [reflexivity|].
  rewrite p_exts_cap_s; auto. pose proof (kept13_length _ HN). lia.
Qed.

Lemma p_ch13_dup : forall ok c, ch13_wire_ok c ->
  (length (h_suites (ch13_known c)) <= 3)%nat ->
  (ok = false -> h_suites (ch13_known c) <> []) -> length (h_comps (ch13_known c)) = 1%nat ->
  ~ NoDup (map fst (h_exts (ch13_known c))) -> p_ch13 ok (s_ch13 c) = None.
Proof.
  intros ok c Hw HS HO HC HN. rewrite p_ch13_head by assumption.
  destruct Hw as (H1 & H2 & H3 & H4 & H0 & H5 & H6 & H7 & H8 & H9 & H10).
  rewrite p_ch13_exts_gen by assumption. unfold ch13_known in *. cbn [h_exts h_suites h_comps] in *.
  destruct (h_exts c) as [|e es]; [exfalso; apply HN; constructor|].
  rewrite p_exts_cap_dup by auto. reflexivity.
Qed.

Lemma p_ch13_exts_inv : forall l es r, bytes_ok l -> p_ch13_exts l = Some (es, r) ->
  r = [] /\ exists all, Forall ext_ok all /\ es = kept ext13_supported all /\ NoDup (map fst es) /\
    len (s_exts all) < 65536 /\
    (l = s_vec 2 (s_exts all) \/ (all = [] /\ l = [])).
Proof.
  intros l es r H E. unfold p_ch13_exts in E. destruct l as [|x l].
  - inversion E; subst. split; [reflexivity|]. exists []. repeat split; auto; try constructor.
  - pinv E. destruct b0; [|discriminate].
    destruct (p_exts_cap 8 b) as [es'|] eqn:E2; [|discriminate].
    apply p_exts_cap_inv in E2 as (all & -> & Hall & -> & HN); auto. inversion E; subst.
    split; [reflexivity|]. exists all. rewrite app_nil_r in *. repeat split; auto.
Qed.

Lemma p_ch13_inv : forall ok l c r, bytes_ok l -> p_ch13 ok l = Some (c, r) ->
  r = [] /\ exists c0, ch13_wire_ok c0 /\ c = ch13_known c0 /\
    (length (h_suites c) <= 3)%nat /\ (ok = false -> h_suites c <> []) /\
    h_comps c = [0] /\ NoDup (map fst (h_exts c)) /\
    (l = s_ch13 c0 \/ (h_exts c0 = [] /\ l = s_ch13 c0 ++ [0; 0])).
Proof.
  intros ok l c r H E. unfold p_ch13 in E. pinv E.
  destruct (p_sid _) as [[sid l4]|] eqn:P1; [|discriminate].
  apply p_sid_inv in P1 as (-> & ? & ? & ?); auto.
  unfold p_cookie in E. pinv E.
  destruct ((n0 =? 0) || negb (n0 mod 2 =? 0)) eqn:En; [discriminate|]. pinv E.
  destruct ((if ok then p_list else p_list1) 2%nat (fun s => memN s suites13_supported) 3%nat _)
    as [ss|] eqn:P2; [|discriminate].
  assert ((ok = false -> ss <> []) /\ (length ss <= 3)%nat /\ exists all, l0 = s_items 2 all /\
    ss = filter (fun s => memN s suites13_supported) all /\ Forall (fun v => v < 256 ^ N.of_nat 2) all)
    as (HO & Hcap & ssall & -> & -> & Hss).
  { destruct ok.
    - apply p_list_inv in P2; auto. split; [discriminate|exact P2].
    - apply p_list1_inv in P2 as [HN0 P2]. apply p_list_inv in P2; auto. }
  pinv E.
  destruct (p_list1 1 _ 1 _) as [cs|] eqn:P3; [|discriminate].
  apply p_list1_inv in P3 as [HN1 P3]. pose proof P3 as P3k. apply p_list_kept in P3k.
  apply p_list_inv in P3 as (Hcap1 & csall & -> & -> & Hcs); auto.
  destruct (p_ch13_exts _) as [[es r']|] eqn:P4; [|discriminate].
  apply p_ch13_exts_inv in P4 as (-> & all & Hall & -> & HND & HLen & Hcases); auto.
  injection E as <- <-. split; [reflexivity|].
  exists (mkCH13 n l sid b ssall csall all).
  assert (n0 = 2 * len ssall) as -> by (rewrite s_items_length in *; unfold len; lia).
  rewrite len_items in *. change (256 ^ N.of_nat 1) with 256 in *. change (256 ^ N.of_nat 2) with 65536 in *.
  split; [|split; [|split; [|split; [|split; [|split]]]]].
  - unfold ch13_wire_ok. cbn [h_version h_random h_sid h_cookie h_suites h_comps h_exts].
    repeat split; auto; try lia. intros ->. cbn in En. discriminate.
  - reflexivity.
  - exact Hcap.
  - exact HO.
  - cbn [h_comps]. destruct (filter (fun c => c =? 0) csall) as [|x1 [|x2 t]] eqn:EF; [congruence| |cbn in Hcap1; lia].
    inversion P3k; subst. f_equal. lia.
  - assumption.
  - cbn [h_exts]. unfold s_ch13, s_vec.
    cbn [h_version h_random h_sid h_cookie h_suites h_comps h_exts].
    rewrite !len_items, <- !app_assoc.
    replace (N.of_nat 1 * len csall) with (len csall) by lia.
    destruct Hcases as [->|[-> ->]].
    + destruct all as [|e all]; [right|left].
      * split; [reflexivity|]. cbn. repeat f_equal.
      * reflexivity.
    + left. reflexivity.
Qed.

(** ** ServerHello, HelloRetryRequest *)
Definition sh13_wire_ok (h : ServerHello13) : Prop := sh12_wire_ok h.
Definition sh13_known (h : ServerHello13) : ServerHello13 :=
  mkSH12 (sh_version h) (sh_random h) (sh_sid h) (sh_suite h) (sh_comp h)
    (match sh_exts h with Some es => Some (kept ext13_supported es) | None => None end).

Lemma p_sh13_gen : forall h, sh13_wire_ok h ->
  p_sh13 (s_sh13 h) =
  match sh_exts h with
  | None => Some (sh13_known h, [])
  | Some es => match p_exts_cap 5 (s_exts es) with
               | Some es' => Some (mkSH12 (sh_version h) (sh_random h) (sh_sid h) (sh_suite h)
                                     (sh_comp h) (Some es'), [])
               | None => None
               end
  end.
Proof.
  intros h (H1 & H2 & H3 & H4 & H5 & H6 & H7 & H8).
  unfold p_sh13, s_sh13, s_sh12, sh12_exts_list, sh13_known in *.
  rewrite p_u16_app by assumption. rewrite take_app_n by assumption.
  rewrite p_sid_app by assumption. rewrite p_u16_app by assumption. rewrite p_u8_app by assumption.
  destruct (sh_exts h) as [es|]; [|reflexivity].
  destruct (s_vec_cons 2 (s_exts es)) as (x & t & Ev); [lia|]. rewrite Ev, <- Ev.
  unfold s_vec at 1. rewrite p_u16_app by assumption.
  destruct (N.eqb_spec (len (s_exts es)) 0) as [Z|Z].
  - exfalso. destruct es as [|e es]; [congruence|]. cbn [s_exts flat_map] in Z.
    unfold len in Z. rewrite app_length, s_ext_length in Z. lia.
  - unfold len at 1. rewrite Nat2N.id. rewrite <- (app_nil_r (s_exts es)) at 2. rewrite take_app.
    reflexivity.
Qed.

Lemma p_sh13_s : forall h, sh13_wire_ok h ->
  NoDup (map fst (sh12_exts_list (sh13_known h))) ->
  (length (sh12_exts_list (sh13_known h)) <= 5)%nat ->
  p_sh13 (s_sh13 h) = Some (sh13_known h, []).
Proof.
  intros h H HN HL. rewrite p_sh13_gen by assumption.
  destruct H as (H1 & H2 & H3 & H4 & H5 & H6 & H7 & H8).
  unfold sh12_exts_list, sh13_known in *. cbn [sh_exts] in *.
  destruct (sh_exts h) as [es|]; [|reflexivity]. rewrite p_exts_cap_s by assumption. reflexivity.
Qed.

Lemma p_sh13_dup : forall h, sh13_wire_ok h ->
  ~ NoDup (map fst (sh12_exts_list (sh13_known h))) -> p_sh13 (s_sh13 h) = None.
Proof.
  intros h H HN. rewrite p_sh13_gen by assumption.
  destruct H as (H1 & H2 & H3 & H4 & H5 & H6 & H7 & H8).
  unfold sh12_exts_list, sh13_known in *. cbn [sh_exts] in *.
  destruct (sh_exts h) as [es|]; [|exfalso; apply HN; constructor].
  rewrite p_exts_cap_dup by assumption. reflexivity.
Qed.

(** ** EncryptedExtensions, Certificate *)
Lemma p_ee13_s : forall es, Forall ext_ok es -> len (s_exts es) < 65536 ->
  NoDup (map fst (kept ext13_supported es)) -> (length (kept ext13_supported es) <= 5)%nat ->
  p_ee13 (s_ee13 es) = Some (kept ext13_supported es, []).
Proof.
  intros. unfold p_ee13, s_ee13. rewrite <- (app_nil_r (s_vec 2 _)), p_vec_app by assumption.
  rewrite p_exts_cap_s by assumption. reflexivity.
Qed.

Lemma p_ee13_dup : forall es, Forall ext_ok es -> len (s_exts es) < 65536 ->
  ~ NoDup (map fst (kept ext13_supported es)) -> p_ee13 (s_ee13 es) = None.
Proof.
  intros. unfold p_ee13, s_ee13. rewrite <- (app_nil_r (s_vec 2 _)), p_vec_app by assumption.
  rewrite p_exts_cap_dup by assumption. reflexivity.
Qed.

Lemma p_entries13_s : forall (es : list (bytes * bytes)) fuel,
  Forall (fun e => len (fst e) < 2^24 /\ len (snd e) < 65536) es ->
  (length (flat_map s_entry13 es) <= fuel)%nat ->
  p_entries13 fuel (flat_map s_entry13 es) = Some es.
Proof.
  induction es as [|[c x] es IH]; intros fuel Hok HL.
  - destruct fuel; reflexivity.
  - inversion Hok as [|? ? [Hv1 Hv2] Hvs]; subst. cbn [fst snd] in *.
    cbn [flat_map] in *. unfold s_entry13 at 1 in HL. cbn [fst snd] in HL.
    rewrite !app_length, !s_vec_length in HL. destruct fuel as [|f]; [lia|].
    destruct (s_entry13 (c, x) ++ flat_map s_entry13 es) eqn:E.
    + apply (f_equal (@length N)) in E. unfold s_entry13 in E. cbn [fst snd] in E.
      rewrite !app_length, !s_vec_length in E. cbn in E; lia.
    + cbn [p_entries13]. rewrite <- E. unfold s_entry13 at 1. cbn [fst snd]. rewrite <- app_assoc.
      rewrite p_vec_app by exact Hv1. rewrite p_vec_app by exact Hv2.
      rewrite IH by (auto; lia). reflexivity.
Qed.

Lemma p_cert13_s : forall ctx (es : list (bytes * bytes)), len ctx < 256 ->
  Forall (fun e => len (fst e) < 2^24 /\ len (snd e) < 65536) es -> (length es <= 32)%nat ->
  len (flat_map s_entry13 es) < 2^24 ->
  p_cert13 (s_cert13 ctx es) = Some ((ctx, es), []).
Proof.
  intros ctx es H1 H2 H3 H4. unfold p_cert13, s_cert13.
  rewrite p_vec_app by exact H1. rewrite <- (app_nil_r (s_vec 3 _)), p_vec_app by exact H4.
  rewrite p_entries13_s by auto. destruct (Nat.leb_spec (length es) 32); [reflexivity|lia].
Qed.

(** ** Extension payloads *)
Lemma p_versions_ch_s : forall vs, vs <> [] -> Forall (fun v => v < 65536) vs -> 2 * len vs < 256 ->
  (length (filter (fun v => memN v versions_known) vs) <= 3)%nat ->
  p_versions_ch (s_versions_ch vs) = Some (filter (fun v => memN v versions_known) vs).
Proof.
  intros vs H0 H1 H2 H3. unfold p_versions_ch, s_versions_ch. rewrite p_u8_app by assumption.
  assert (0 < len vs) by (destruct vs; [congruence|unfold len; cbn; lia]).
  replace ((2 * len vs =? 0) || negb ((2 * len vs) mod 2 =? 0)) with false by lia.
  change (2 * len vs) with (N.of_nat 2 * len vs). rewrite take_items. apply p_list_s; auto; lia.
Qed.

Lemma p_schemes13_s : forall a, a <> [] -> Forall (fun g => g < 65536) a -> 2 * len a < 65536 ->
  (length (filter (fun g => memN g schemes13_supported) a) <= 2)%nat ->
  p_schemes13 (s_schemes13 a) = Some (filter (fun g => memN g schemes13_supported) a).
Proof.
  intros a H0 H1 H2 H3. unfold p_schemes13, s_schemes13. rewrite p_u16_app by assumption.
  assert (0 < len a) by (destruct a; [congruence|unfold len; cbn; lia]).
  replace ((2 * len a =? 0) || negb ((2 * len a) mod 2 =? 0)) with false by lia.
  change (2 * len a) with (N.of_nat 2 * len a). rewrite take_items. apply p_list_s; auto; lia.
Qed.

Definition share_ok (e : N * bytes) : Prop := fst e < 65536 /\ len (snd e) < 65536.
Definition known_group (e : N * bytes) : bool := memN (fst e) named_groups_supported.

Lemma p_share_s : forall e r, share_ok e -> p_share (s_share e ++ r) = Some (e, r).
Proof.
  intros [g k] r [H1 H2]. cbn [fst snd] in *. unfold p_share, s_share. cbn [fst snd].
  rewrite <- app_assoc, p_u16_app by assumption. rewrite p_vec_app by exact H2. reflexivity.
Qed.

Lemma p_shares_loop_s : forall es fuel, Forall share_ok es ->
  (length (flat_map s_share es) <= fuel)%nat ->
  p_shares_loop fuel (flat_map s_share es) = Some (filter known_group es).
Proof.
  induction es as [|e es IH]; intros fuel Hok HL.
  - destruct fuel; reflexivity.
  - inversion Hok as [|? ? Hv Hvs]; subst. cbn [flat_map filter] in *.
    assert (length (s_share e) = 4 + length (snd e))%nat as HS
      by (unfold s_share; rewrite app_length, s_vec_length, be_length; lia).
    rewrite app_length in HL. destruct fuel as [|f]; [lia|].
    destruct (s_share e ++ flat_map s_share es) eqn:E.
    + apply (f_equal (@length N)) in E. rewrite app_length, HS in E. cbn in E; lia.
    + cbn [p_shares_loop]. rewrite <- E, p_share_s by assumption.
      rewrite IH by (auto; lia). reflexivity.
Qed.

Lemma p_shares_ch_s : forall es, Forall share_ok es -> len (flat_map s_share es) < 65536 ->
  (length (filter known_group es) <= 4)%nat ->
  p_shares_ch (s_shares_ch es) = Some (filter known_group es).
Proof.
  intros es H1 H2 H3. unfold p_shares_ch, s_shares_ch.
  rewrite <- (app_nil_r (s_vec 2 _)), p_vec_app by exact H2.
  rewrite p_shares_loop_s by auto.
  destruct (Nat.leb_spec (length (filter known_group es)) 4); [reflexivity|lia].
Qed.

Lemma p_share_sh_s : forall e, share_ok e -> p_share_sh (s_share_sh e) = Some e.
Proof.
  intros e H. unfold p_share_sh, s_share_sh. rewrite <- (app_nil_r (s_share e)), p_share_s by assumption.
  reflexivity.
Qed.
Lemma p_share_hrr_s : forall g, g < 65536 -> p_share_hrr (s_share_hrr g) = Some g.
Proof.
  intros g H. unfold p_share_hrr, s_share_hrr. rewrite <- (app_nil_r (be 2 g)), p_u16_app by assumption.
  reflexivity.
Qed.
Lemma p_versions_sh_s : forall g, g < 65536 -> p_versions_sh (s_versions_sh g) = Some g.
Proof.
  intros g H. unfold p_versions_sh, s_versions_sh. rewrite <- (app_nil_r (be 2 g)), p_u16_app by assumption.
  reflexivity.
Qed.
Lemma p_cookie_ext_s : forall c, c <> [] -> len c < 65536 -> p_cookie_ext (s_cookie_ext c) = Some c.
Proof.
  intros c H1 H2. unfold p_cookie_ext, s_cookie_ext.
  rewrite <- (app_nil_r (s_vec 2 c)), p_vec_app by exact H2. destruct c; [congruence|reflexivity].
Qed.
