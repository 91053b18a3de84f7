(** C06, C50 (DTLS 1.2 part), C53: wire codecs. *)
From Verif Require Import Prelude PreludeFacts Types Codec CodecProofs Codec12 Codec12Proofs
  Record12 Record12Proofs Spec.

(** ** C06: record header *)

(** What is written is the wire layout of RFC 6347. *)
Theorem C06_record_serialize : forall ct v ep sq frag,
  ct < 256 -> v < 65536 -> ep < 65536 -> sq < 2^48 -> len frag < 65536 ->
  is_record12 (s_rec12 ct v ep sq frag) ct v ep sq frag.
Proof. intros; apply s_rec12_layout; unfold rec_fields; auto. Qed.
Print Assumptions C06_record_serialize.

(** A valid record, followed by anything, parses to its fields and the parser
    stops exactly at its end. *)
Theorem C06_record_parse_complete : forall w ct v ep sq frag rest, bytes_ok w ->
  is_record12 w ct v ep sq frag -> valid_header12 ct v ep ->
  p_rec12 0 (w ++ rest) = Some (ct, v, ep, sq, len frag, frag, rest).
Proof.
  intros w ct v ep sq frag rest Hok HL HV.
  apply layout_s_rec12 in HL as [-> HF]; auto. apply p_rec12_s; auto.
Qed.
Print Assumptions C06_record_parse_complete.

(** Whatever bytes are parsed successfully start with a valid record having the
    returned fields; nothing outside the input is read. *)
Theorem C06_record_parse_sound : forall l ct v ep sq n frag rest, bytes_ok l ->
  p_rec12 0 l = Some (ct, v, ep, sq, n, frag, rest) ->
  n = len frag /\ valid_header12 ct v ep /\
  exists w, l = w ++ rest /\ is_record12 w ct v ep sq frag /\ w = s_rec12 ct v ep sq frag.
Proof.
  intros l ct v ep sq n frag rest Hok E.
  apply p_rec12_inv in E as (-> & -> & HF & HV & _); auto.
  split; [reflexivity|]. split; [assumption|].
  eexists; split; [reflexivity|]. split; [apply s_rec12_layout; assumption|reflexivity].
Qed.
Print Assumptions C06_record_parse_sound.

Example C06_case :
  is_record12 [22; 254; 253; 0; 1; 0; 0; 0; 0; 1; 2; 0; 3; 9; 8; 7] 22 65277 1 258 [9; 8; 7] /\
  valid_header12 22 65277 1 /\
  p_rec12 0 ([22; 254; 253; 0; 1; 0; 0; 0; 0; 1; 2; 0; 3; 9; 8; 7] ++ [1; 1]) =
    Some (22, 65277, 1, 258, 3, [9; 8; 7], [1; 1]) /\
  p_rec12 0 [23; 254; 253; 0; 0; 0; 0; 0; 0; 0; 0; 0; 0] = None.
Proof.
  split; [|split; [|split; vm_compute; reflexivity]].
  - do 12 eexists. split; [reflexivity|]. vm_compute. auto.
  - unfold valid_header12. split; [auto|discriminate].
Qed.

(** ** C53: handshake fragment header *)
Theorem C53_fragment_serialize : forall t n s o d,
  t < 256 -> n < 2^24 -> s < 65536 -> o < 2^24 -> len d < 2^24 ->
  is_fragment (s_hs_header t n s o (len d) ++ d) t n s o d.
Proof. intros; apply s_frag_layout; unfold frag_fields; auto. Qed.
Print Assumptions C53_fragment_serialize.

Theorem C53_fragment_parse_complete : forall w t n s o d rest, bytes_ok w ->
  is_fragment w t n s o d ->
  p_frag12 (w ++ rest) = Some (mkFrag t n s o (len d) d false, rest).
Proof.
  intros w t n s o d rest Hok HL. apply layout_s_frag in HL as [-> HF]; auto.
  rewrite <- app_assoc. apply p_frag12_s; auto.
Qed.
Print Assumptions C53_fragment_parse_complete.

Theorem C53_fragment_parse_sound : forall l f rest, bytes_ok l -> p_frag12 l = Some (f, rest) ->
  exists w, l = w ++ rest /\
    is_fragment w (f_type f) (f_length f) (f_seq f) (f_off f) (f_data f) /\
    f_flen f = len (f_data f).
Proof.
  intros l f rest Hok E. apply p_frag12_inv in E as (-> & HL & _ & HF & _); auto.
  eexists; split; [rewrite app_assoc; reflexivity|]. split; [apply s_frag_layout; assumption|assumption].
Qed.
Print Assumptions C53_fragment_parse_sound.

Example C53_case :
  is_fragment [1; 0; 1; 0; 0; 7; 0; 0; 2; 0; 0; 1; 5] 1 256 7 2 [5] /\
  p_frag12 [1; 0; 1; 0; 0; 7; 0; 0; 2; 0; 0; 1; 5] = Some (mkFrag 1 256 7 2 1 [5] false, []).
Proof.
  split; [|vm_compute; reflexivity]. do 11 eexists. split; [reflexivity|]. vm_compute. auto.
Qed.

(** ** C50: hello messages and extensions, DTLS 1.2 *)

(** A ClientHello with any mix of known and unknown suites, compression methods
    and extensions: parsing what was written gives back exactly the known part. *)
Theorem C50_client_hello12_roundtrip : forall c, ch12_wire_ok c ->
  (0 < length (ch_suites (ch12_known c)) <= 4)%nat -> length (ch_comps (ch12_known c)) = 1%nat ->
  NoDup (map fst (ch_exts (ch12_known c))) ->
  p_ch12 (s_ch12 c) = Some (ch12_known c, []).
Proof. exact p_ch12_s. Qed.
Print Assumptions C50_client_hello12_roundtrip.

(** A repeated known extension is rejected. *)
Theorem C50_client_hello12_duplicate : forall c, ch12_wire_ok c ->
  (0 < length (ch_suites (ch12_known c)) <= 4)%nat -> length (ch_comps (ch12_known c)) = 1%nat ->
  ~ NoDup (map fst (ch_exts (ch12_known c))) -> p_ch12 (s_ch12 c) = None.
Proof. exact p_ch12_dup. Qed.
Print Assumptions C50_client_hello12_duplicate.

(** Conversely everything accepted is the encoding of some ClientHello (possibly
    with an explicit empty extension block) of which the known part was kept. *)
Theorem C50_client_hello12_sound : forall l c r, bytes_ok l -> p_ch12 l = Some (c, r) ->
  exists c0, ch12_wire_ok c0 /\ c = ch12_known c0 /\
    (0 < length (ch_suites c) <= 4)%nat /\ ch_comps c = [0] /\ NoDup (map fst (ch_exts c)) /\
    (l = s_ch12 c0 ++ r \/ (ch_exts c0 = [] /\ l = s_ch12 c0 ++ [0; 0] ++ r)).
Proof. exact p_ch12_inv. Qed.
Print Assumptions C50_client_hello12_sound.

Example C50_client_hello12_case :
  let c := mkCH12 65277 (repeat 7 32) [1; 2] [9] [4865; 49195; 49196] [1; 0]
             [(0, [1; 2; 3]); (23, []); (10, [0; 2; 0; 23])] in
  ch12_wire_ok c /\ ch_suites (ch12_known c) = [49195; 49196] /\ ch_comps (ch12_known c) = [0] /\
  ch_exts (ch12_known c) = [(23, []); (10, [0; 2; 0; 23])] /\
  p_ch12 (s_ch12 c) = Some (ch12_known c, []).
Proof.
  cbn zeta. split; [|vm_compute; auto]. unfold ch12_wire_ok, ext_ok. cbn. 
  repeat split; try lia; repeat (constructor; cbn; try lia; repeat split; try lia).
Qed.

Theorem C50_server_hello12_roundtrip : forall h, sh12_wire_ok h ->
  NoDup (map fst (sh12_exts_list (sh12_known h))) ->
  p_sh12 (s_sh12 h) = Some (sh12_known h, []).
Proof. exact p_sh12_s. Qed.
Print Assumptions C50_server_hello12_roundtrip.

Theorem C50_server_hello12_duplicate : forall h, sh12_wire_ok h ->
  ~ NoDup (map fst (sh12_exts_list (sh12_known h))) -> p_sh12 (s_sh12 h) = None.
Proof. exact p_sh12_dup. Qed.
Print Assumptions C50_server_hello12_duplicate.

Example C50_server_hello12_case :
  let h := mkSH12 65277 (repeat 7 32) [] 49196 0 (Some [(23, []); (99, [1])]) in
  sh12_wire_ok h /\ p_sh12 (s_sh12 h) = Some (sh12_known h, []) /\
  p_sh12 (s_sh12 (mkSH12 65277 (repeat 7 32) [] 49196 0 (Some [(23, []); (23, [])]))) = None.
Proof.
  cbn zeta. split; [|vm_compute; auto]. unfold sh12_wire_ok, ext_ok. cbn. 
  repeat split; try lia; try discriminate; repeat (constructor; cbn; try lia; repeat split; try lia).
Qed.

Theorem C50_hello_verify_roundtrip : forall v c, v < 65536 -> (0 < length c < 256)%nat ->
  p_hvr12 (s_hvr12 (v, c)) = Some ((v, c), []).
Proof. exact p_hvr12_s. Qed.
Print Assumptions C50_hello_verify_roundtrip.

Theorem C50_certificate12_roundtrip : forall cs : list bytes,
  Forall (fun c => len c < 2^24) cs -> (length cs <= 32)%nat ->
  len (s_vecs 3 cs) < 2^24 -> p_cert12 (s_cert12 cs) = Some (cs, []).
Proof. exact p_cert12_s. Qed.
Print Assumptions C50_certificate12_roundtrip.

Theorem C50_certificate_verify12_roundtrip : forall a s r, a < 65536 -> len s < 65536 ->
  p_signed12 (s_signed12 (a, s) ++ r) = Some ((a, s), r).
Proof. exact p_signed12_s. Qed.
Print Assumptions C50_certificate_verify12_roundtrip.

Theorem C50_certificate_request12_roundtrip : forall ts ss (auths : list bytes),
  Forall (fun t => t < 256) ts -> len ts < 256 -> length (filter (fun t => t =? 64) ts) = 1%nat ->
  Forall (fun a => a < 65536) ss -> 2 * len ss < 65536 ->
  (length (filter (fun a => memN a sigalgs12_supported) ss) <= 4)%nat ->
  Forall (fun a => len a < 65536 /\ (1 <= length a)%nat) auths -> (length auths <= 32)%nat ->
  len (s_vecs 2 auths) < 65536 ->
  p_cr12 (s_cr12 (mkCR12 ts ss auths)) =
  Some (mkCR12 (filter (fun t => t =? 64) ts) (filter (fun a => memN a sigalgs12_supported) ss) auths, []).
Proof. exact p_cr12_s. Qed.
Print Assumptions C50_certificate_request12_roundtrip.

Theorem C50_key_exchange12_roundtrip :
  (forall c g pk a sg, c < 256 -> g < 65536 -> len pk < 256 -> a < 65536 -> len sg < 65536 ->
     p_ske12 KX_ECDHE (s_ske12 true (SKE_ecdh c g pk (Some (a, sg)))) =
     Some (SKE_ecdh c g pk (Some (a, sg)), [])) /\
  (forall h, len h < 65536 -> p_ske12 KX_PSK (s_ske12 true (SKE_psk h)) = Some (SKE_psk h, [])) /\
  (forall pk, len pk < 256 -> p_cke12 KX_ECDHE (s_cke12 (CKE_ecdh pk)) = Some (CKE_ecdh pk, [])) /\
  (forall i, len i < 65536 -> p_cke12 KX_PSK (s_cke12 (CKE_psk i)) = Some (CKE_psk i, [])).
Proof.
  exact (conj p_ske12_ecdh_s (conj p_ske12_psk_s (conj p_cke12_ecdh_s p_cke12_psk_s))).
Qed.
Print Assumptions C50_key_exchange12_roundtrip.

Theorem C50_extensions12_roundtrip :
  (forall gs, Forall (fun g => g < 65536) gs -> 2 * len gs < 65536 ->
     (length (filter (fun g => memN g named_groups_supported) gs) <= 4)%nat ->
     p_groups12 (s_groups12 gs) = Some (filter (fun g => memN g named_groups_supported) gs)) /\
  (forall a, a <> [] -> Forall (fun g => g < 65536) a -> 2 * len a < 65536 ->
     (length (filter (fun g => memN g sigalgs12_supported) a) <= 4)%nat ->
     p_sigalgs12 (s_sigalgs12 a) = Some (filter (fun g => memN g sigalgs12_supported) a)) /\
  (forall fs, Forall (fun f => f < 256) fs -> len fs < 256 ->
     (length (filter (fun f => (f <=? 2)%N) fs) <= 3)%nat ->
     p_points12 (s_points12 fs) = Some (filter (fun f => f <=? 2) fs)) /\
  (forall ps mki, Forall (fun p => p < 65536) ps -> 2 * len ps < 65536 ->
     (length (filter (fun p => memN p srtp_known) ps) <= 3)%nat -> len mki < 256 ->
     p_srtp (s_srtp ps mki) = Some (filter (fun p => memN p srtp_known) ps, mki)).
Proof.
  exact (conj p_groups12_s (conj p_sigalgs12_s (conj p_points12_s p_srtp_s))).
Qed.
Print Assumptions C50_extensions12_roundtrip.

Example C50_extensions12_case :
  p_groups12 (s_groups12 [29; 4588; 23]) = Some [29; 23] /\
  p_sigalgs12 (s_sigalgs12 [1027; 2052; 1283]) = Some [1027; 1283] /\
  p_srtp (s_srtp [7; 99; 1] []) = Some ([7; 1], []) /\
  p_srtp (s_srtp [7; 8; 1; 7] []) = None.
Proof. vm_compute. auto. Qed.
