(** C07, C28 (codec part), C31, C50 (DTLS 1.3 part): wire codecs of DTLS 1.3. *)
From Verif Require Import Prelude PreludeFacts Types Codec CodecProofs Codec12 Codec12Proofs
  Codec13 Codec13Proofs Record12 Record12Proofs Record13 Record13Proofs Spec Spec13.

(** ** C07: record headers *)

(** What the sender writes is a unified header with a 16-bit number and a length
    (low bits of the epoch and of the number), or a plaintext header. *)
Theorem C07_unified_serialize13 : forall ct ep sq frag, ep <> 0 -> len frag < 65536 ->
  is_unified (s_rec13 ct ep sq frag) true true (ep mod 2^2) (sq mod 2^16) frag.
Proof.
  intros ct ep sq frag He HL. unfold s_rec13.
  replace (ep =? 0) with false by (symmetry; apply N.eqb_neq, He). apply s_cipher13_layout; auto.
Qed.
Print Assumptions C07_unified_serialize13.

Theorem C07_plain_serialize13 : forall ct sq frag, ct < 256 -> sq < 2^48 -> len frag < 65536 ->
  is_record12 (s_rec13 ct 0 sq frag) ct 65277 0 sq frag.
Proof. intros. unfold s_rec13. cbn [N.eqb]. apply s_plain13_layout; auto. reflexivity. Qed.
Print Assumptions C07_plain_serialize13.

(** Every unified header without connection id (8- or 16-bit number, with a length
    and anything behind the record, or without a length up to the end) parses to
    its fields. *)
Theorem C07_unified_parse13 : forall w s16 has_len ep sq frag rest, bytes_ok w ->
  is_unified w s16 has_len ep sq frag -> (has_len = false -> rest = [] /\ len frag < 65536) ->
  exists start, p_rec13 (w ++ rest) = Some (mkHdr13 23 ep sq (len frag) start frag, rest) /\
    skipn start w = frag.
Proof.
  intros w s l ep sq frag rest Hok HU HR. eexists. split; [apply p_rec13_unified; eauto|].
  destruct HU as (num & lf & -> & _ & Hn & Hl).
  assert (length num = if s then 2 else 1)%nat as Hnum
    by (destruct s; [destruct Hn as (? & ? & -> & _)|subst num]; reflexivity).
  assert (length lf = if l then 2 else 0)%nat as Hlf
    by (destruct l; [destruct Hl as (? & ? & -> & _)|subst lf]; reflexivity).
  cbn [Nat.add skipn]. rewrite <- Hnum, <- Hlf, <- app_length, app_assoc.
  rewrite skipn_app, Nat.sub_diag, skipn_all. reflexivity.
Qed.
Print Assumptions C07_unified_parse13.

(** What the sender wrote, with anything behind it, parses back. *)
Theorem C07_unified_roundtrip13 : forall ct ep sq frag rest, bytes_ok frag -> ep <> 0 ->
  len frag < 65536 ->
  p_rec13 (s_rec13 ct ep sq frag ++ rest) =
  Some (mkHdr13 23 (ep mod 2^2) (sq mod 2^16) (len frag) 5 frag, rest).
Proof.
  intros ct ep sq frag rest Hok He HL.
  pose proof (C07_unified_serialize13 ct ep sq frag He HL) as HU.
  eapply p_rec13_unified in HU; [exact HU| |discriminate].
  unfold s_rec13. replace (ep =? 0) with false by (symmetry; apply N.eqb_neq, He).
  apply s_cipher13_ok, Hok.
Qed.
Print Assumptions C07_unified_roundtrip13.

Theorem C07_plain_parse13 : forall w ct v ep sq frag rest, bytes_ok w ->
  is_record12 w ct v ep sq frag -> valid_plain13 ct v ep ->
  p_rec13 (w ++ rest) = Some (mkHdr13 ct ep sq (len frag) 13 frag, rest).
Proof.
  intros w ct v ep sq frag rest Hok HL HV. destruct HV as (H1 & -> & H3).
  eapply p_plain13_s; eauto. split; auto.
Qed.
Print Assumptions C07_plain_parse13.

Theorem C07_plain_roundtrip13 : forall ct sq frag rest, bytes_ok frag ->
  ct = 21 \/ ct = 22 \/ ct = 26 -> sq < 2^48 -> len frag < 65536 ->
  p_rec13 (s_rec13 ct 0 sq frag ++ rest) = Some (mkHdr13 ct 0 sq (len frag) 13 frag, rest).
Proof.
  intros ct sq frag rest Hok HC Hs HL.
  eapply C07_plain_parse13; [|apply C07_plain_serialize13; auto|].
  - unfold s_rec13, s_plain13. cbn [N.eqb]. repeat (apply bytes_ok_app; split; [apply be_ok|]). exact Hok.
  - destruct HC as [->|[->| ->]]; reflexivity.
  - unfold valid_plain13. auto.
Qed.
Print Assumptions C07_plain_roundtrip13.

(** Whatever is accepted starts with a header of one of these forms having the
    returned fields; what is left over is the rest of the input. *)
Theorem C07_parse_sound13 : forall l h rest, bytes_ok l -> p_rec13 l = Some (h, rest) ->
  d_length h = len (d_frag h) /\ exists w, l = w ++ rest /\ skipn (d_start h) w = d_frag h /\
  ((exists v, is_record12 w (d_ctype h) v (d_epoch h) (d_seq h) (d_frag h) /\
              valid_plain13 (d_ctype h) v (d_epoch h)) \/
   (exists s16 has_len, is_unified w s16 has_len (d_epoch h) (d_seq h) (d_frag h) /\
      d_ctype h = 23 /\ (has_len = false -> len (d_frag h) = len (d_frag h ++ rest) mod 2^16))).
Proof.
  intros l h rest Hok E. apply p_rec13_inv in E as [(w & v & -> & HR & HV & HL & HS)|(w & s & b & -> & HU & HC & HL & HS & HB)]; auto.
  - split; [assumption|]. exists w. split; [reflexivity|]. split; [|eauto].
    rewrite HS. destruct HR as (? & ? & ? & ? & ? & ? & ? & ? & ? & ? & ? & ? & -> & _). reflexivity.
  - split; [assumption|]. exists w. split; [reflexivity|]. split; [|right; exists s, b; auto].
    rewrite HS. destruct HU as (num & lf & -> & _). rewrite app_comm_cons, app_assoc.
    set (hd := (_ :: num) ++ lf). rewrite app_length.
    replace (length hd + length (d_frag h) - length (d_frag h))%nat with (length hd) by lia.
    rewrite skipn_app, skipn_all, Nat.sub_diag. reflexivity.
Qed.
Print Assumptions C07_parse_sound13.

(** The connection-id bit is refused: first bytes 0011xxxx. *)
Theorem C07_cid_refused13 : forall b r, 48 <= b < 64 -> p_rec13 (b :: r) = None.
Proof. exact p_rec13_cid. Qed.
Print Assumptions C07_cid_refused13.

Example C07_case13 :
  is_unified [46; 1; 2; 0; 3; 9; 8; 7] true true 2 258 [9; 8; 7] /\
  p_rec13 ([46; 1; 2; 0; 3; 9; 8; 7] ++ [1]) = Some (mkHdr13 23 2 258 3 5 [9; 8; 7], [1]) /\
  s_rec13 23 6 65794 [9; 8; 7] = [46; 1; 2; 0; 3; 9; 8; 7] /\
  is_unified [35; 77; 9; 8] false false 3 77 [9; 8] /\
  p_rec13 [35; 77; 9; 8] = Some (mkHdr13 23 3 77 2 2 [9; 8], []) /\
  p_rec13 [62; 1; 2; 0; 3; 9; 8; 7] = None /\
  p_rec13 [46; 1; 2; 0; 4; 9; 8; 7] = None.
Proof.
  split; [|split; [|split; [|split; [|split; [|split]]]]]; try (vm_compute; reflexivity).
  - exists [1; 2], [0; 3]. split; [reflexivity|]. split; [reflexivity|].
    split; do 2 eexists; split; reflexivity.
  - exists [77], []. split; [reflexivity|]. split; [reflexivity|]. split; reflexivity.
Qed.

(** ** C31: inner content type *)
Theorem C31_recovered13 : forall plaintext ct padding, ct <> 0 ->
  inner_type (plaintext ++ [ct] ++ repeat 0 padding) = Some (ct, plaintext).
Proof. intros. cbn [app]. apply inner_type_s; auto. Qed.
Print Assumptions C31_recovered13.

Theorem C31_all_zero13 : forall n, inner_type (repeat 0 n) = None.
Proof. exact inner_type_zeros. Qed.
Print Assumptions C31_all_zero13.

Theorem C31_sound13 : forall l ct c, inner_type l = Some (ct, c) ->
  ct <> 0 /\ exists padding, l = c ++ [ct] ++ repeat 0 padding.
Proof. intros. cbn [app]. apply inner_type_some; auto. Qed.
Print Assumptions C31_sound13.

Example C31_case13 :
  inner_type ([7; 0; 0] ++ [23] ++ [0; 0]) = Some (23, [7; 0; 0]) /\ inner_type [0; 0; 0] = None.
Proof. vm_compute. auto. Qed.

(** ** C28: the ACK encoder and decoder are inverse *)
Theorem C28_ack_serialize13 : forall es, Forall (fun e => fst e < 2^64 /\ snd e < 2^64) es ->
  16 * len es < 65536 -> is_ack (s_ack es) es.
Proof. exact s_ack_layout. Qed.
Print Assumptions C28_ack_serialize13.

Theorem C28_ack_parse13 : forall w es, bytes_ok w -> (p_ack w = Some es <-> is_ack w es).
Proof. intros w es H. split; [apply p_ack_sound, H|apply p_ack_complete, H]. Qed.
Print Assumptions C28_ack_parse13.

Theorem C28_ack_roundtrip13 : forall es, Forall (fun e => fst e < 2^64 /\ snd e < 2^64) es ->
  16 * len es < 65536 -> p_ack (s_ack es) = Some es.
Proof. intros. apply C28_ack_parse13; [apply s_ack_ok|apply s_ack_layout; auto]. Qed.
Print Assumptions C28_ack_roundtrip13.

Example C28_ack_case13 :
  p_ack (s_ack [(2, 5); (3, 2^40)]) = Some [(2, 5); (3, 2^40)] /\ p_ack [0; 17; 1] = None /\
  is_ack ([0; 16] ++ [0;0;0;0;0;0;0;2] ++ [0;0;0;0;0;0;1;1]) [(2, 257)].
Proof.
  split; [vm_compute; reflexivity|]. split; [vm_compute; reflexivity|].
  do 3 eexists. split; [reflexivity|]. split; [reflexivity|].
  apply (ack_cons [0;0;0;0;0;0;0;2] [0;0;0;0;0;0;1;1] [] []); try reflexivity. constructor.
Qed.

(** ** C50: hello messages and extensions, DTLS 1.3 *)
Theorem C50_client_hello13_roundtrip : forall unknown_suites_ok c, ch13_wire_ok c ->
  (length (h_suites (ch13_known c)) <= 3)%nat ->
  (unknown_suites_ok = false -> h_suites (ch13_known c) <> []) ->
  length (h_comps (ch13_known c)) = 1%nat ->
  NoDup (map fst (h_exts (ch13_known c))) ->
  p_ch13 unknown_suites_ok (s_ch13 c) = Some (ch13_known c, []).
Proof. exact p_ch13_s. Qed.
Print Assumptions C50_client_hello13_roundtrip.

Theorem C50_client_hello13_duplicate : forall unknown_suites_ok c, ch13_wire_ok c ->
  (length (h_suites (ch13_known c)) <= 3)%nat ->
  (unknown_suites_ok = false -> h_suites (ch13_known c) <> []) ->
  length (h_comps (ch13_known c)) = 1%nat ->
  ~ NoDup (map fst (h_exts (ch13_known c))) -> p_ch13 unknown_suites_ok (s_ch13 c) = None.
Proof. exact p_ch13_dup. Qed.
Print Assumptions C50_client_hello13_duplicate.

Theorem C50_client_hello13_sound : forall unknown_suites_ok l c r, bytes_ok l ->
  p_ch13 unknown_suites_ok l = Some (c, r) ->
  r = [] /\ exists c0, ch13_wire_ok c0 /\ c = ch13_known c0 /\
    (length (h_suites c) <= 3)%nat /\ (unknown_suites_ok = false -> h_suites c <> []) /\
    h_comps c = [0] /\ NoDup (map fst (h_exts c)) /\
    (l = s_ch13 c0 \/ (h_exts c0 = [] /\ l = s_ch13 c0 ++ [0; 0])).
Proof. exact p_ch13_inv. Qed.
Print Assumptions C50_client_hello13_sound.

Example C50_client_hello13_case :
  let c := mkCH13 65277 (repeat 7 32) [1; 2] [] [4865; 49195; 4867] [0]
             [(43, [2; 254; 252]); (0, [1; 2; 3]); (51, [0; 0])] in
  ch13_wire_ok c /\ h_suites (ch13_known c) = [4865; 4867] /\
  h_exts (ch13_known c) = [(43, [2; 254; 252]); (51, [0; 0])] /\
  p_ch13 false (s_ch13 c) = Some (ch13_known c, []).
Proof.
  cbn zeta. split; [|vm_compute; auto]. unfold ch13_wire_ok, ext_ok. cbn.
  repeat split; try lia; try discriminate; repeat (constructor; cbn; try lia; repeat split; try lia).
Qed.

(** ServerHello and HelloRetryRequest share the format. *)
Theorem C50_server_hello13_roundtrip : forall h, sh13_wire_ok h ->
  NoDup (map fst (sh12_exts_list (sh13_known h))) ->
  (length (sh12_exts_list (sh13_known h)) <= 5)%nat ->
  p_sh13 (s_sh13 h) = Some (sh13_known h, []).
Proof. exact p_sh13_s. Qed.
Print Assumptions C50_server_hello13_roundtrip.

Theorem C50_server_hello13_duplicate : forall h, sh13_wire_ok h ->
  ~ NoDup (map fst (sh12_exts_list (sh13_known h))) -> p_sh13 (s_sh13 h) = None.
Proof. exact p_sh13_dup. Qed.
Print Assumptions C50_server_hello13_duplicate.

Theorem C50_encrypted_extensions13_roundtrip : forall es,
  Forall ext_ok es -> len (s_exts es) < 65536 ->
  NoDup (map fst (kept ext13_supported es)) -> (length (kept ext13_supported es) <= 5)%nat ->
  p_ee13 (s_ee13 es) = Some (kept ext13_supported es, []).
Proof. exact p_ee13_s. Qed.
Print Assumptions C50_encrypted_extensions13_roundtrip.

Theorem C50_encrypted_extensions13_duplicate : forall es,
  Forall ext_ok es -> len (s_exts es) < 65536 ->
  ~ NoDup (map fst (kept ext13_supported es)) -> p_ee13 (s_ee13 es) = None.
Proof. exact p_ee13_dup. Qed.
Print Assumptions C50_encrypted_extensions13_duplicate.

Theorem C50_certificate13_roundtrip : forall ctx (es : list (bytes * bytes)), len ctx < 256 ->
  Forall (fun e => len (fst e) < 2^24 /\ len (snd e) < 65536) es -> (length es <= 32)%nat ->
  len (flat_map s_entry13 es) < 2^24 ->
  p_cert13 (s_cert13 ctx es) = Some ((ctx, es), []).
Proof. exact p_cert13_s. Qed.
Print Assumptions C50_certificate13_roundtrip.

Theorem C50_extensions13_roundtrip :
  (forall vs, vs <> [] -> Forall (fun v => v < 65536) vs -> 2 * len vs < 256 ->
     (length (filter (fun v => memN v versions_known) vs) <= 3)%nat ->
     p_versions_ch (s_versions_ch vs) = Some (filter (fun v => memN v versions_known) vs)) /\
  (forall v, v < 65536 -> p_versions_sh (s_versions_sh v) = Some v) /\
  (forall a, a <> [] -> Forall (fun g => g < 65536) a -> 2 * len a < 65536 ->
     (length (filter (fun g => memN g schemes13_supported) a) <= 2)%nat ->
     p_schemes13 (s_schemes13 a) = Some (filter (fun g => memN g schemes13_supported) a)) /\
  (forall es, Forall share_ok es -> len (flat_map s_share es) < 65536 ->
     (length (filter known_group es) <= 4)%nat ->
     p_shares_ch (s_shares_ch es) = Some (filter known_group es)) /\
  (forall e, share_ok e -> p_share_sh (s_share_sh e) = Some e) /\
  (forall g, g < 65536 -> p_share_hrr (s_share_hrr g) = Some g) /\
  (forall c, c <> [] -> len c < 65536 -> p_cookie_ext (s_cookie_ext c) = Some c).
Proof.
  exact (conj p_versions_ch_s (conj p_versions_sh_s (conj p_schemes13_s (conj p_shares_ch_s
    (conj p_share_sh_s (conj p_share_hrr_s p_cookie_ext_s)))))).
Qed.
Print Assumptions C50_extensions13_roundtrip.

Example C50_extensions13_case :
  p_versions_ch (s_versions_ch [65276; 772]) = Some [65276] /\
  p_shares_ch (s_shares_ch [(4588, [1; 2]); (29, [3; 4])]) = Some [(29, [3; 4])] /\
  p_cookie_ext (s_cookie_ext [1; 2; 3]) = Some [1; 2; 3] /\
  p_sh13 (s_sh13 (mkSH12 65277 (repeat 7 32) [] 4865 0 (Some [(43, [254; 252]); (99, [])]))) =
    Some (mkSH12 65277 (repeat 7 32) [] 4865 0 (Some [(43, [254; 252])]), []) /\
  p_sh13 (s_sh13 (mkSH12 65277 (repeat 7 32) [] 4865 0 (Some [(43, []); (43, [])]))) = None /\
  p_cert13 (s_cert13 [] [([1; 2], []); ([3], [9])]) = Some (([], [([1; 2], []); ([3], [9])]), []).
Proof. vm_compute. auto 10. Qed.
