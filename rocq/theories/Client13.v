(** src/dtls13/client.rs: the DTLS 1.3 client. *)
From Coq Require Import String.
From Verif Require Import Prelude Types Codec Codec12 Codec13 Record12 Record13 Monad Timer Env
  Config Aead Prf Window Engine12 Client12 Engine13.
Close Scope string_scope.

(** src/dtls13/client.rs:317-332 [State] *)
Inductive CState13 :=
| CT_SendClientHello | CT_AwaitServerHello | CT_AwaitEncryptedExtensions
| CT_AwaitCertificateRequest | CT_AwaitCertificate | CT_AwaitCertificateVerify | CT_AwaitFinished
| CT_SendCertificate | CT_SendCertificateVerify | CT_SendFinished | CT_AwaitApplicationData
| CT_HalfClosedLocal | CT_Closed.

Definition cstate13_eq_dec (a b : CState13) : {a = b} + {a <> b}.
Proof. decide equality. Defined.
Definition cstate13_eqb (a b : CState13) : bool :=
  if cstate13_eq_dec a b then true else false.

(** src/dtls13/client.rs:64-127 [Client].  Not modelled: [extension_data] and
    [defragment_buffer], which are scratch space.  The active key exchange is
    (group, secret, public). *)
Record Client13 := mkClient13 {
  xc_state : CState13; (* state *)
  xc_eng : Eng13; (* engine *)
  xc_random : option bytes; (* random *)
  xc_sid : option bytes; (* session_id *)
  xc_srtp : option N; (* negotiated_srtp_profile *)
  xc_certs : list bytes; (* server_certificates *)
  xc_auth : bool; (* client_auth_requested *)
  xc_ctx : option bytes; (* cert_request_context *)
  xc_cookie : option bytes; (* saved_cookie *)
  xc_now : N; (* last_now *)
  xc_events : list LocalEvent12; (* local_events *)
  xc_queued : list bytes; (* queued_data *)
  xc_pend : bool; (* pending_key_update_response *)
  xc_kx : option (N * bytes * bytes); (* active_key_exchange *)
  xc_retry : bool; (* hello_retry *)
  xc_hrr_group : option N; (* hrr_selected_group *)
  xc_hs : option bytes; (* handshake_secret *)
  xc_chs : option bytes; (* client_hs_traffic_secret *)
  xc_shs : option bytes }. (* server_hs_traffic_secret *)

(** Field updates of [Client13] ([self.f = v] in the Rust code). *)
Definition set_xc_state (v : CState13) (s : Client13) : Client13 :=
  mkClient13 v (xc_eng s) (xc_random s) (xc_sid s) (xc_srtp s) (xc_certs s) (xc_auth s) (xc_ctx s) (xc_cookie s) (xc_now s) (xc_events s) (xc_queued s) (xc_pend s) (xc_kx s) (xc_retry s) (xc_hrr_group s) (xc_hs s) (xc_chs s) (xc_shs s).
Definition set_xc_eng (v : Eng13) (s : Client13) : Client13 :=
  mkClient13 (xc_state s) v (xc_random s) (xc_sid s) (xc_srtp s) (xc_certs s) (xc_auth s) (xc_ctx s) (xc_cookie s) (xc_now s) (xc_events s) (xc_queued s) (xc_pend s) (xc_kx s) (xc_retry s) (xc_hrr_group s) (xc_hs s) (xc_chs s) (xc_shs s).
Definition set_xc_random (v : option bytes) (s : Client13) : Client13 :=
  mkClient13 (xc_state s) (xc_eng s) v (xc_sid s) (xc_srtp s) (xc_certs s) (xc_auth s) (xc_ctx s) (xc_cookie s) (xc_now s) (xc_events s) (xc_queued s) (xc_pend s) (xc_kx s) (xc_retry s) (xc_hrr_group s) (xc_hs s) (xc_chs s) (xc_shs s).
Definition set_xc_sid (v : option bytes) (s : Client13) : Client13 :=
  mkClient13 (xc_state s) (xc_eng s) (xc_random s) v (xc_srtp s) (xc_certs s) (xc_auth s) (xc_ctx s) (xc_cookie s) (xc_now s) (xc_events s) (xc_queued s) (xc_pend s) (xc_kx s) (xc_retry s) (xc_hrr_group s) (xc_hs s) (xc_chs s) (xc_shs s).
Definition set_xc_srtp (v : option N) (s : Client13) : Client13 :=
  mkClient13 (xc_state s) (xc_eng s) (xc_random s) (xc_sid s) v (xc_certs s) (xc_auth s) (xc_ctx s) (xc_cookie s) (xc_now s) (xc_events s) (xc_queued s) (xc_pend s) (xc_kx s) (xc_retry s) (xc_hrr_group s) (xc_hs s) (xc_chs s) (xc_shs s).
Definition set_xc_certs (v : list bytes) (s : Client13) : Client13 :=
  mkClient13 (xc_state s) (xc_eng s) (xc_random s) (xc_sid s) (xc_srtp s) v (xc_auth s) (xc_ctx s) (xc_cookie s) (xc_now s) (xc_events s) (xc_queued s) (xc_pend s) (xc_kx s) (xc_retry s) (xc_hrr_group s) (xc_hs s) (xc_chs s) (xc_shs s).
Definition set_xc_auth (v : bool) (s : Client13) : Client13 :=
  mkClient13 (xc_state s) (xc_eng s) (xc_random s) (xc_sid s) (xc_srtp s) (xc_certs s) v (xc_ctx s) (xc_cookie s) (xc_now s) (xc_events s) (xc_queued s) (xc_pend s) (xc_kx s) (xc_retry s) (xc_hrr_group s) (xc_hs s) (xc_chs s) (xc_shs s).
Definition set_xc_ctx (v : option bytes) (s : Client13) : Client13 :=
  mkClient13 (xc_state s) (xc_eng s) (xc_random s) (xc_sid s) (xc_srtp s) (xc_certs s) (xc_auth s) v (xc_cookie s) (xc_now s) (xc_events s) (xc_queued s) (xc_pend s) (xc_kx s) (xc_retry s) (xc_hrr_group s) (xc_hs s) (xc_chs s) (xc_shs s).
Definition set_xc_cookie (v : option bytes) (s : Client13) : Client13 :=
  mkClient13 (xc_state s) (xc_eng s) (xc_random s) (xc_sid s) (xc_srtp s) (xc_certs s) (xc_auth s) (xc_ctx s) v (xc_now s) (xc_events s) (xc_queued s) (xc_pend s) (xc_kx s) (xc_retry s) (xc_hrr_group s) (xc_hs s) (xc_chs s) (xc_shs s).
Definition set_xc_now (v : N) (s : Client13) : Client13 :=
  mkClient13 (xc_state s) (xc_eng s) (xc_random s) (xc_sid s) (xc_srtp s) (xc_certs s) (xc_auth s) (xc_ctx s) (xc_cookie s) v (xc_events s) (xc_queued s) (xc_pend s) (xc_kx s) (xc_retry s) (xc_hrr_group s) (xc_hs s) (xc_chs s) (xc_shs s).
Definition set_xc_events (v : list LocalEvent12) (s : Client13) : Client13 :=
  mkClient13 (xc_state s) (xc_eng s) (xc_random s) (xc_sid s) (xc_srtp s) (xc_certs s) (xc_auth s) (xc_ctx s) (xc_cookie s) (xc_now s) v (xc_queued s) (xc_pend s) (xc_kx s) (xc_retry s) (xc_hrr_group s) (xc_hs s) (xc_chs s) (xc_shs s).
Definition set_xc_queued (v : list bytes) (s : Client13) : Client13 :=
  mkClient13 (xc_state s) (xc_eng s) (xc_random s) (xc_sid s) (xc_srtp s) (xc_certs s) (xc_auth s) (xc_ctx s) (xc_cookie s) (xc_now s) (xc_events s) v (xc_pend s) (xc_kx s) (xc_retry s) (xc_hrr_group s) (xc_hs s) (xc_chs s) (xc_shs s).
Definition set_xc_pend (v : bool) (s : Client13) : Client13 :=
  mkClient13 (xc_state s) (xc_eng s) (xc_random s) (xc_sid s) (xc_srtp s) (xc_certs s) (xc_auth s) (xc_ctx s) (xc_cookie s) (xc_now s) (xc_events s) (xc_queued s) v (xc_kx s) (xc_retry s) (xc_hrr_group s) (xc_hs s) (xc_chs s) (xc_shs s).
Definition set_xc_kx (v : option (N * bytes * bytes)) (s : Client13) : Client13 :=
  mkClient13 (xc_state s) (xc_eng s) (xc_random s) (xc_sid s) (xc_srtp s) (xc_certs s) (xc_auth s) (xc_ctx s) (xc_cookie s) (xc_now s) (xc_events s) (xc_queued s) (xc_pend s) v (xc_retry s) (xc_hrr_group s) (xc_hs s) (xc_chs s) (xc_shs s).
Definition set_xc_retry (v : bool) (s : Client13) : Client13 :=
  mkClient13 (xc_state s) (xc_eng s) (xc_random s) (xc_sid s) (xc_srtp s) (xc_certs s) (xc_auth s) (xc_ctx s) (xc_cookie s) (xc_now s) (xc_events s) (xc_queued s) (xc_pend s) (xc_kx s) v (xc_hrr_group s) (xc_hs s) (xc_chs s) (xc_shs s).
Definition set_xc_hrr_group (v : option N) (s : Client13) : Client13 :=
  mkClient13 (xc_state s) (xc_eng s) (xc_random s) (xc_sid s) (xc_srtp s) (xc_certs s) (xc_auth s) (xc_ctx s) (xc_cookie s) (xc_now s) (xc_events s) (xc_queued s) (xc_pend s) (xc_kx s) (xc_retry s) v (xc_hs s) (xc_chs s) (xc_shs s).
Definition set_xc_hs (v : option bytes) (s : Client13) : Client13 :=
  mkClient13 (xc_state s) (xc_eng s) (xc_random s) (xc_sid s) (xc_srtp s) (xc_certs s) (xc_auth s) (xc_ctx s) (xc_cookie s) (xc_now s) (xc_events s) (xc_queued s) (xc_pend s) (xc_kx s) (xc_retry s) (xc_hrr_group s) v (xc_chs s) (xc_shs s).
Definition set_xc_chs (v : option bytes) (s : Client13) : Client13 :=
  mkClient13 (xc_state s) (xc_eng s) (xc_random s) (xc_sid s) (xc_srtp s) (xc_certs s) (xc_auth s) (xc_ctx s) (xc_cookie s) (xc_now s) (xc_events s) (xc_queued s) (xc_pend s) (xc_kx s) (xc_retry s) (xc_hrr_group s) (xc_hs s) v (xc_shs s).
Definition set_xc_shs (v : option bytes) (s : Client13) : Client13 :=
  mkClient13 (xc_state s) (xc_eng s) (xc_random s) (xc_sid s) (xc_srtp s) (xc_certs s) (xc_auth s) (xc_ctx s) (xc_cookie s) (xc_now s) (xc_events s) (xc_queued s) (xc_pend s) (xc_kx s) (xc_retry s) (xc_hrr_group s) (xc_hs s) (xc_chs s) v.

Notation XM := (M Client13).
(** [client.engine.op()] *)
Definition xeng {A} (m : M Eng13 A) : XM A := zoom xc_eng set_xc_eng m.

(** src/dtls13/client.rs:137-171 [new_with_engine] *)
Definition client13_new (e : Eng13) (now : N) : Client13 :=
  mkClient13 CT_SendClientHello (set_g_client true e) None None None [] false None None now [] []
    false None false None None None None.

Section Client13.
Variable E : Env.

(** ** Message bodies *)

(** src/dtls13/client.rs:1171-1316 [handshake_create_client_hello], the extensions
    before padding.  Simplified: [collect] into an [ArrayVec] of capacity 4 panics
    with more than four groups; the providers offer three. *)
Definition ch13_exts (e : Eng13) (group : N) (pub : bytes) (cookie : option bytes)
  : list (N * bytes) :=
  [(X_VERSIONS, s_versions_ch [V_DTLS13]);
   (X_GROUPS, s_groups13 (cfg_groups E (g_cfg e)));
   (X_KEYSHARE, s_shares_ch [(group, pub)]);
   (X_SIGALGS, s_schemes13 schemes13_supported);
   (X_SRTP, s_srtp [SRTP_GCM256; SRTP_GCM128; SRTP_SHA1_80] [])] ++
  match cookie with Some d => [(X_COOKIE, d)] | None => [] end.
(** src/dtls13/client.rs:1271-1300: padding up to the MTU *)
Definition ch13_padding (mtu suites : N) (es : list (N * bytes)) : list (N * bytes) :=
  let body := 2 + 32 + 1 + 1 + (2 + 2 * suites) + (1 + 1) + 2 + 4 * len es +
              len (flat_map snd es) in
  let deficit := mtu - (13 + 12 + body) in
  if 4 <=? deficit then [(X_PADDING, repeat 0 (N.to_nat (deficit - 4)))] else [].
Definition create_client_hello13 (random : bytes) (group : N) (pub : bytes)
  (cookie : option bytes) : M Eng13 bytes :=
  let! e := get in
  let suites := firstn 3 (cfg_suites13 E (g_cfg e)) in
  let es := ch13_exts e group pub cookie in
  ret (s_ch13 (mkCH13 V_DTLS12 random [] [] suites [0]
                 (es ++ ch13_padding (c_mtu (g_cfg e)) (len suites) es))).

(** src/dtls13/client.rs:1318-1346 [handshake_create_certificate] *)
Definition create_certificate13 (ctx : bytes) : M Eng13 bytes :=
  let! e := get in ret (s_cert13 ctx [(g_cert e, [])]).

(** src/dtls13/client.rs:1376-1396, 1403-1446: the scheme of a key and the hash of
    a scheme.  Only the two schemes of [SignatureScheme::supported] reach the second
    function. *)
Definition scheme_of_key (k : KeyInfo) : option N :=
  if (key_alg k =? SIG_ECDSA) && (key_hash k =? H_SHA256) then Some 1027
  else if (key_alg k =? SIG_ECDSA) && (key_hash k =? H_SHA384) then Some 1283
  else if (key_alg k =? SIG_RSA) && (key_hash k =? H_SHA256) then Some 2052
  else None.
Definition scheme_hash (s : N) : N := if s =? 1027 then H_SHA256 else H_SHA384.
Definition scheme_group (s : N) : N := if s =? 1027 then G_P256 else G_P384. (* src/types.rs:626 *)

(** src/dtls13/client.rs:1354-1361: what CertificateVerify signs *)
Definition CV_SERVER : bytes := str "TLS 1.3, server CertificateVerify" ++ [0].
Definition CV_CLIENT : bytes := str "TLS 1.3, client CertificateVerify" ++ [0].
Definition cv_content (context hash : bytes) : bytes := repeat 32 64 ++ context ++ hash.

(** src/dtls13/client.rs:1348-1401 [handshake_create_certificate_verify] *)
Definition create_certificate_verify13 (context : bytes) : M Eng13 bytes :=
  let! th := transcript_hash13 E in
  let! e := get in
  let k := g_key e in
  let! t := draw13 in
  let! sig := of_opt ECrypto (e_sign E (key_bytes k) (key_hash k) (cv_content context th) t) in
  let! scheme := of_opt ECrypto (scheme_of_key k) in
  ret (be 2 scheme ++ s_vec 2 sig).

(** src/dtls13/client.rs:1450-1468 [verify_scheme_curve] *)
Definition verify_scheme_curve (scheme : N) (cert : bytes) : M Eng13 unit :=
  match e_cert_group E cert with
  | None => fail ECertificate
  | Some g => if g =? scheme_group scheme then ret tt else fail (ESecurity SE_signature)
  end.

(** src/dtls13/client.rs:830-877 and src/dtls13/server.rs:1027-1080: checking the
    CertificateVerify of the peer against the transcript hash before it *)
Definition check_certificate_verify (context hash : bytes) (certs : list bytes) (scheme : N)
  (sig : bytes) : M Eng13 unit :=
  if negb (memN scheme schemes13_supported) then fail (ESecurity SE_signature)
  else if 512 <? len sig then fail (ESecurity SE_signature)
  else match certs with
       | [] => fail ECertificate
       | cert :: _ =>
         verify_scheme_curve scheme cert ;;;
         if e_verify E cert (cv_content context hash) sig (scheme_hash scheme) SIG_ECDSA
         then ret tt else fail ECrypto
       end.

(** src/dtls13/client.rs:1473-1545 [parse_certificate_request]: the context.  The
    walk through the extensions has no effect on the result. *)
Definition parse_certificate_request (d : bytes) : option (option bytes) :=
  match d with
  | [] => Some None
  | n :: r =>
    if (0 <? n) && (len r <? n) then None
    else
      let ctx := if 0 <? n then Some (firstn (N.to_nat n) r) else None in
      let rest := skipn (N.to_nat n) r in
      if len rest <? 2 then Some ctx
      else if len (skipn 2 rest) <? unbe (firstn 2 rest) then None
      else Some ctx
  end.

(** ** States *)

(** src/dtls13/client.rs:372-443 *)
Definition x_send_client_hello : XM CState13 :=
  let! c := get in
  match xc_random c with
  | None => panic 374
  | Some random =>
    xeng (flight_begin13 E) ;;;
    let groups := cfg_groups E (g_cfg (xc_eng c)) in
    let! group := of_opt ECrypto
      (match xc_hrr_group c with Some g => Some g | None => hd_error groups end) in
    if negb (memN group groups) then fail ECrypto
    else
      let! t := xeng draw13 in
      let! kx := of_opt ECrypto (e_kx_start E group t) in
      modify (set_xc_kx (Some (group, fst kx, snd kx))) ;;;
      xeng (create_handshake13 E MT_ClientHello
              (create_client_hello13 random group (snd kx) (xc_cookie c))) ;;;
      ret CT_AwaitServerHello
  end.

(** src/dtls13/client.rs:476-497: the extensions of HelloRetryRequest *)
Fixpoint hrr_extensions (es : list (N * bytes)) : XM unit :=
  match es with
  | [] => ret tt
  | (t, d) :: r =>
    (if t =? X_KEYSHARE then
       match p_share_hrr d with
       | Some g => modify (set_xc_hrr_group (Some g))
       | None => ret tt
       end
     else if t =? X_COOKIE then
       match p_cookie_ext d with
       | None => fail ETransient
       | Some _ => modify (set_xc_cookie (Some d))
       end
     else ret tt) ;;;
    hrr_extensions r
  end.
(** src/dtls13/client.rs:511-521: the last [supported_versions] that parses *)
Definition hrr_version (es : list (N * bytes)) : bool :=
  fold_left (fun ok x => if fst x =? X_VERSIONS
                         then match p_versions_sh (snd x) with
                              | Some v => v =? V_DTLS13
                              | None => ok
                              end
                         else ok) es false.
(** src/dtls13/client.rs:583-607: some [supported_versions] selects DTLS 1.3; the
    last key share that parses *)
Definition sh13_version (es : list (N * bytes)) : bool :=
  existsb (fun x => (fst x =? X_VERSIONS) &&
                    match p_versions_sh (snd x) with Some v => v =? V_DTLS13 | None => false end) es.
Definition sh13_share (es : list (N * bytes)) : option (N * bytes) :=
  fold_left (fun o x => if fst x =? X_KEYSHARE
                        then match p_share_sh (snd x) with Some s => Some s | None => o end
                        else o) es None.
Definition exts_of (o : option (list (N * bytes))) : list (N * bytes) :=
  match o with Some es => es | None => [] end.

(** src/dtls13/client.rs:464-541: HelloRetryRequest.  [tlen] is the length of the
    transcript before the message. *)
Definition x_hello_retry (h : ServerHello12) (tlen : nat) : XM CState13 :=
  let! c := get in
  if xc_retry c then
    xeng (modify (fun e => set_g_transcript (firstn tlen (g_transcript e)) e)) ;;;
    fail (ESecurity SE_second_hrr)
  else
    hrr_extensions (exts_of (sh_exts h)) ;;;
    if negb (suite13_allowed E (xc_eng c) (sh_suite h)) then fail (ESecurity SE_suite_disallowed)
    else
      xeng (modify (set_g_suite (Some (sh_suite h)))) ;;;
      if negb (hrr_version (exts_of (sh_exts h))) then fail (ESecurity SE_version)
      else
        xeng (replace_transcript E tlen) ;;;
        xeng advance_peer ;;;
        xeng reset_for_hello_retry ;;;
        modify (set_xc_retry true) ;;;
        modify (set_xc_kx None) ;;;
        ret CT_SendClientHello.

(** src/dtls13/client.rs:543-677: ServerHello *)
Definition x_server_hello (h : ServerHello12) : XM CState13 :=
  let! c := get in
  let cs := sh_suite h in
  if negb (sh_version h =? V_DTLS12) then fail (ESecurity SE_version)
  else if negb (sh_comp h =? 0) then fail (ESecurity SE_compression)
  else if negb (memN cs suites13_supported) then fail (ESecurity SE_other)
  else if negb (suite13_allowed E (xc_eng c) cs) then fail (ESecurity SE_suite_disallowed)
  else
    xeng (modify (set_g_suite (Some cs))) ;;;
    modify (set_xc_sid (Some (sh_sid h))) ;;;
    match sh_exts h with
    | None => fail EIncompleteSH
    | Some es =>
      if negb (sh13_version es) then fail (ESecurity SE_version)
      else match sh13_share es with
      | None => fail (ESecurity SE_other)
      | Some (sg, peer) =>
        match xc_kx c with
        | None => fail EInvalidState
        | Some (group, secret, _) =>
          modify (set_xc_kx None) ;;;
          if negb (group =? sg) then fail (ESecurity SE_other)
          else
            let! shared := of_opt ECrypto (e_kx_complete E group secret peer) in
            let! q := xeng (derive_handshake_secrets E shared) in
            modify (set_xc_hs (Some (snd q))) ;;;
            modify (set_xc_shs (Some (snd (fst q)))) ;;;
            modify (set_xc_chs (Some (fst (fst q)))) ;;;
            xeng (install_handshake_keys E (fst (fst q)) (snd (fst q))) ;;;
            xeng (enable_peer_encryption13 E) ;;;
            xeng advance_peer ;;;
            ret CT_AwaitEncryptedExtensions
        end
      end
    end.

(** src/dtls13/client.rs:446-678 *)
Definition x_await_server_hello : XM CState13 :=
  let! c := get in
  let! o := xeng (next_handshake13 MT_ServerHello) in
  match o with
  | None => ret CT_AwaitServerHello
  | Some m =>
    match n_body m with
    | D_ServerHello h =>
      if is_hrr h then x_hello_retry h (length (g_transcript (xc_eng c)))
      else x_server_hello h
    | _ => panic 460
    end
  end.

(** src/dtls13/client.rs:692-706 *)
Fixpoint ee13_extensions (es : list (N * bytes)) : XM unit :=
  match es with
  | [] => ret tt
  | (t, d) :: r =>
    (if t =? X_SRTP then
       match p_srtp d with
       | None => fail ETransient
       | Some (p :: _, _) => modify (set_xc_srtp (Some p))
       | Some ([], _) => ret tt
       end
     else ret tt) ;;;
    ee13_extensions r
  end.
(** src/dtls13/client.rs:680-712 *)
Definition x_await_encrypted_extensions : XM CState13 :=
  let! o := xeng (next_handshake13 MT_EncryptedExtensions) in
  match o with
  | None => ret CT_AwaitEncryptedExtensions
  | Some m =>
    match n_body m with
    | D_EncryptedExtensions es =>
      ee13_extensions es ;;;
      xeng advance_peer ;;;
      ret CT_AwaitCertificateRequest
    | _ => panic 690
    end
  end.

(** src/dtls13/client.rs:714-751 *)
Definition x_await_certificate_request : XM CState13 :=
  let! c := get in
  if has_complete13 (xc_eng c) MT_Certificate then ret CT_AwaitCertificate
  else
    let! o := xeng (next_handshake13 MT_CertificateRequest) in
    match o with
    | None => ret CT_AwaitCertificateRequest
    | Some m =>
      match n_body m with
      | D_CertificateRequest raw =>
        match parse_certificate_request raw with
        | None => fail EUnexpected
        | Some ctx =>
          (match ctx with Some x => modify (set_xc_ctx (Some x)) | None => ret tt end) ;;;
          modify (set_xc_auth true) ;;;
          xeng advance_peer ;;;
          ret CT_AwaitCertificate
        end
      | _ => panic 733
      end
    end.

(** src/dtls13/client.rs:753-808 *)
Definition x_await_certificate : XM CState13 :=
  let! o := xeng (next_handshake13 MT_Certificate) in
  match o with
  | None => ret CT_AwaitCertificate
  | Some m =>
    match n_body m with
    | D_Certificate ctx es =>
      if negb (is_nil ctx) then fail ECertificate
      else if is_nil es then fail ECertificate
      else
        modify (fun c => set_xc_certs (xc_certs c ++ map fst es) c) ;;;
        modify (fun c => set_xc_events (xc_events c ++ [LE_PeerCert]) c) ;;;
        xeng advance_peer ;;;
        ret CT_AwaitCertificateVerify
    | _ => panic 763
    end
  end.

(** src/dtls13/client.rs:810-883 *)
Definition x_await_certificate_verify : XM CState13 :=
  let! th := xeng (transcript_hash13 E) in
  let! o := xeng (next_handshake13 MT_CertificateVerify) in
  match o with
  | None => ret CT_AwaitCertificateVerify
  | Some m =>
    match n_body m with
    | D_CertificateVerify scheme sig =>
      let! c := get in
      xeng (check_certificate_verify CV_SERVER th (xc_certs c) scheme sig) ;;;
      xeng advance_peer ;;;
      ret CT_AwaitFinished
    | _ => panic 828
    end
  end.

(** src/dtls13/client.rs:885-954 *)
Definition x_await_finished : XM CState13 :=
  let! c := get in
  let! shs := of_opt EInvalidState (xc_shs c) in
  let! expected := xeng (compute_verify_data E shs) in
  let! o := xeng (next_handshake13 MT_Finished) in
  match o with
  | None => ret CT_AwaitFinished
  | Some m =>
    match n_body m with
    | D_Finished vd =>
      if negb (beqb vd expected) then fail (ESecurity SE_finished)
      else
        xeng advance_peer ;;;
        let! hs := of_opt EInvalidState (xc_hs c) in
        let! q := xeng (derive_application_secrets E hs) in
        xeng (install_application_keys E (fst q) (snd q)) ;;;
        ret (if xc_auth c then CT_SendCertificate else CT_SendFinished)
    | _ => panic 906
    end
  end.

(** src/dtls13/client.rs:956-998 *)
Definition x_send_certificate : XM CState13 :=
  let! c := get in
  let ctx := match xc_ctx c with Some x => x | None => [] end in
  xeng (flight_begin13 E) ;;;
  if negb (is_nil (g_cert (xc_eng c))) then
    xeng (create_handshake13 E MT_Certificate (create_certificate13 ctx)) ;;;
    ret CT_SendCertificateVerify
  else
    xeng (create_handshake13 E MT_Certificate (ret (s_cert13 ctx []))) ;;;
    ret CT_SendFinished.

(** src/dtls13/client.rs:1000-1014 *)
Definition x_send_certificate_verify : XM CState13 :=
  xeng (create_handshake13 E MT_CertificateVerify (create_certificate_verify13 CV_CLIENT)) ;;;
  ret CT_SendFinished.

(** [if let Ok(..) = extract_srtp_keying_material(profile)]: a failure is ignored *)
Definition keying13 (profile : option N) : M Eng13 (list LocalEvent12) :=
  match profile with
  | None => ret []
  | Some p => fun e => match extract_srtp13 E p e with
                       | (Ok km, e') => (Ok [LE_Keying km p], e')
                       | (Err _, e') => (Ok [], e')
                       | (Panic n, e') => (Panic n, e')
                       end
  end.

(** src/dtls13/client.rs:1016-1074 *)
Definition x_send_finished : XM CState13 :=
  let! c := get in
  when (negb (xc_auth c)) (xeng (flight_begin13 E)) ;;;
  let! chs := of_opt EInvalidState (xc_chs c) in
  xeng (create_handshake13 E MT_Finished (compute_verify_data E chs)) ;;;
  modify (fun c => set_xc_events (xc_events c ++ [LE_Connected]) c) ;;;
  let! k := xeng (keying13 (xc_srtp c)) in
  modify (fun c => set_xc_events (xc_events c ++ k) c) ;;;
  xeng release13 ;;;
  ret CT_AwaitApplicationData.

(** src/dtls13/client.rs:1076-1140.  [drain] empties the queue even when sending one
    of the items fails. *)
Definition x_await_application_data : XM CState13 :=
  let! needs := xeng take_needs_key_update in
  let! c := get in
  when (needs && negb (g_inflight (xc_eng c))) (xeng (create_key_update E true)) ;;;
  let! c := get in
  let ep := g_epoch (xc_eng c) in
  modify (set_xc_queued []) ;;;
  iterM (fun d => xeng (create_cipher13 E CT_APP ep false d)) (xc_queued c) ;;;
  (if xc_pend c then
     xeng (create_key_update E false) ;;; modify (set_xc_pend false)
   else ret tt) ;;;
  let! c := get in
  if negb (has_complete13 (xc_eng c) MT_KeyUpdate) then ret CT_AwaitApplicationData
  else
    let! o := xeng (next_handshake13_no_transcript MT_KeyUpdate) in
    match o with
    | None => ret CT_AwaitApplicationData
    | Some m =>
      match n_body m with
      | D_KeyUpdate requested =>
        xeng (update_recv_keys E) ;;;
        xeng (send_ack13 E) ;;;
        let! c := get in
        when (requested && negb (g_inflight (xc_eng c))) (modify (set_xc_pend true)) ;;;
        xeng advance_peer ;;;
        ret CT_AwaitApplicationData
      | _ => panic 1119
      end
    end.

(** src/dtls13/client.rs:1142-1164 *)
Definition x_half_closed_local : XM CState13 :=
  let! c := get in
  (if has_complete13 (xc_eng c) MT_KeyUpdate then
     let! o := xeng (next_handshake13_no_transcript MT_KeyUpdate) in
     match o with
     | None => ret tt
     | Some m =>
       match n_body m with
       | D_KeyUpdate _ => xeng (update_recv_keys E) ;;; xeng advance_peer
       | _ => panic 1152
       end
     end
   else ret tt) ;;;
  let! c := get in
  ret (if is_some (g_cn (xc_eng c)) then CT_Closed else CT_HalfClosedLocal).

(** src/dtls13/client.rs:354-370 [State::make_progress] *)
Definition x_step (st : CState13) : XM CState13 :=
  match st with
  | CT_SendClientHello => x_send_client_hello
  | CT_AwaitServerHello => x_await_server_hello
  | CT_AwaitEncryptedExtensions => x_await_encrypted_extensions
  | CT_AwaitCertificateRequest => x_await_certificate_request
  | CT_AwaitCertificate => x_await_certificate
  | CT_AwaitCertificateVerify => x_await_certificate_verify
  | CT_AwaitFinished => x_await_finished
  | CT_SendCertificate => x_send_certificate
  | CT_SendCertificateVerify => x_send_certificate_verify
  | CT_SendFinished => x_send_finished
  | CT_AwaitApplicationData => x_await_application_data
  | CT_HalfClosedLocal => x_half_closed_local
  | CT_Closed => ret CT_Closed
  end.

(** src/dtls13/client.rs:302-315 [make_progress].  The loop goes back at most once
    (HelloRetryRequest); the fuel is never exhausted (proved in Steps13). *)
Fixpoint x_progress (fuel : nat) : XM unit :=
  match fuel with
  | O => panic 9003
  | S fuel' =>
    let! c := get in
    let! st := x_step (xc_state c) in
    if cstate13_eqb (xc_state c) st then ret tt
    else modify (set_xc_state st) ;;; x_progress fuel'
  end.
Definition x_make_progress : XM unit := x_progress 40.

(** ** API *)

(** src/dtls13/client.rs:221-230 [handle_packet] *)
Definition client13_handle_packet (p : bytes) : XM unit :=
  public (xeng (eng13_parse_packet E p) ;;; x_make_progress).

(** src/dtls13/client.rs:232-237 [poll_output] *)
Definition client13_poll_output (cap : N) : XM Output :=
  let! c := get in
  match xc_events c with
  | ev :: r => modify (set_xc_events r) ;;; event12_output ev cap (xc_certs c)
  | [] => xeng (eng13_poll_output cap (xc_now c))
  end.

(** src/dtls13/client.rs:240-250 [handle_timeout] *)
Definition client13_handle_timeout (now : N) : XM unit :=
  modify (set_xc_now now) ;;;
  let! c := get in
  (match xc_random c with
   | Some _ => ret tt
   | None => let! r := xeng (rand_bytes13 E 32) in modify (set_xc_random (Some r))
   end) ;;;
  xeng (eng13_handle_timeout E now) ;;;
  public x_make_progress.

(** src/dtls13/client.rs:258-279 [send_application_data] *)
Definition client13_send (d : bytes) : XM unit :=
  let! c := get in
  match xc_state c with
  | CT_Closed | CT_HalfClosedLocal => fail EClosed
  | CT_AwaitApplicationData => xeng (create_cipher13 E CT_APP (g_epoch (xc_eng c)) false d)
  | _ => modify (fun c => set_xc_queued (xc_queued c ++ [d]) c)
  end.

(** src/dtls13/client.rs:282-300 [close] *)
Definition client13_close : XM unit :=
  let! c := get in
  match xc_state c with
  | CT_Closed | CT_HalfClosedLocal => ret tt
  | CT_AwaitApplicationData =>
    xeng (create_cipher13 E CT_ALERT (g_epoch (xc_eng c)) false [1; 0]) ;;;
    xeng cancel_flights ;;;
    modify (set_xc_state CT_HalfClosedLocal)
  | _ => xeng eng13_abort ;;; modify (set_xc_state CT_Closed)
  end.

(** src/dtls13/client.rs:173-211 [new_from_hybrid]: the result of the final
    [handle_timeout(now)?] together with the client. *)
Definition client13_from_hybrid (random fragment : bytes) (kx : N * bytes * bytes)
  (cfg : Config) (cert : bytes) (key : KeyInfo) (now : N) : res unit * Client13 :=
  let e := snd (inject_hybrid fragment (eng13_new E cfg cert key true)) in
  client13_handle_timeout now
    (mkClient13 CT_AwaitServerHello e (Some random) None None [] false None None now [] []
       false (Some kx) false None None None None).

End Client13.
