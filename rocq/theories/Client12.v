(** src/dtls12/client.rs: the DTLS 1.2 client. *)
From Verif Require Import Prelude Types Codec Codec12 Record12 Monad Timer Env Config Aead Prf
  Window Context12 Engine12.

(** src/dtls12/client.rs:279-298 [State] *)
Inductive CState12 :=
| CS_SendClientHello | CS_AwaitHelloVerifyRequest | CS_AwaitServerHello | CS_AwaitCertificate
| CS_AwaitServerKeyExchange | CS_AwaitCertificateRequest | CS_AwaitServerHelloDone
| CS_SendCertificate | CS_SendClientKeyExchange | CS_SendCertificateVerify
| CS_SendChangeCipherSpec | CS_SendFinished | CS_AwaitChangeCipherSpec
| CS_AwaitNewSessionTicket | CS_AwaitFinished | CS_AwaitApplicationData | CS_Closed.

Definition cstate12_eq_dec (a b : CState12) : {a = b} + {a <> b}.
Proof. decide equality. Defined.
Definition cstate12_eqb (a b : CState12) : bool :=
  if cstate12_eq_dec a b then true else false.

(** src/dtls12/client.rs:84-90 [LocalEvent] *)
Inductive LocalEvent12 := LE_PeerCert | LE_Connected | LE_Keying (m : bytes) (profile : N).

(** src/dtls12/client.rs:36-82 [Client].  Not modelled: [extension_data] and
    [defragment_buffer], which are scratch space. *)
Record Client12 := mkClient12 {
  cl_state : CState12; (* state *)
  cl_eng : Eng12; (* engine *)
  cl_random : option bytes; (* random *)
  cl_sid : option bytes; (* session_id *)
  cl_cookie : option bytes; (* cookie *)
  cl_srtp : option N; (* negotiated_srtp_profile *)
  cl_srandom : option bytes; (* server_random *)
  cl_certs : list bytes; (* server_certificates *)
  cl_cv : bool; (* certificate_verify *)
  cl_sh : option bytes; (* captured_session_hash *)
  cl_now : N; (* last_now *)
  cl_events : list LocalEvent12; (* local_events *)
  cl_queued : list bytes }. (* queued_data *)

(** Field updates of [Client12] ([self.f = v] in the Rust code). *)
Definition set_cl_state (v : CState12) (s : Client12) : Client12 :=
  mkClient12 v (cl_eng s) (cl_random s) (cl_sid s) (cl_cookie s) (cl_srtp s) (cl_srandom s) (cl_certs s) (cl_cv s) (cl_sh s) (cl_now s) (cl_events s) (cl_queued s).
Definition set_cl_eng (v : Eng12) (s : Client12) : Client12 :=
  mkClient12 (cl_state s) v (cl_random s) (cl_sid s) (cl_cookie s) (cl_srtp s) (cl_srandom s) (cl_certs s) (cl_cv s) (cl_sh s) (cl_now s) (cl_events s) (cl_queued s).
Definition set_cl_random (v : option bytes) (s : Client12) : Client12 :=
  mkClient12 (cl_state s) (cl_eng s) v (cl_sid s) (cl_cookie s) (cl_srtp s) (cl_srandom s) (cl_certs s) (cl_cv s) (cl_sh s) (cl_now s) (cl_events s) (cl_queued s).
Definition set_cl_sid (v : option bytes) (s : Client12) : Client12 :=
  mkClient12 (cl_state s) (cl_eng s) (cl_random s) v (cl_cookie s) (cl_srtp s) (cl_srandom s) (cl_certs s) (cl_cv s) (cl_sh s) (cl_now s) (cl_events s) (cl_queued s).
Definition set_cl_cookie (v : option bytes) (s : Client12) : Client12 :=
  mkClient12 (cl_state s) (cl_eng s) (cl_random s) (cl_sid s) v (cl_srtp s) (cl_srandom s) (cl_certs s) (cl_cv s) (cl_sh s) (cl_now s) (cl_events s) (cl_queued s).
Definition set_cl_srtp (v : option N) (s : Client12) : Client12 :=
  mkClient12 (cl_state s) (cl_eng s) (cl_random s) (cl_sid s) (cl_cookie s) v (cl_srandom s) (cl_certs s) (cl_cv s) (cl_sh s) (cl_now s) (cl_events s) (cl_queued s).
Definition set_cl_srandom (v : option bytes) (s : Client12) : Client12 :=
  mkClient12 (cl_state s) (cl_eng s) (cl_random s) (cl_sid s) (cl_cookie s) (cl_srtp s) v (cl_certs s) (cl_cv s) (cl_sh s) (cl_now s) (cl_events s) (cl_queued s).
Definition set_cl_certs (v : list bytes) (s : Client12) : Client12 :=
  mkClient12 (cl_state s) (cl_eng s) (cl_random s) (cl_sid s) (cl_cookie s) (cl_srtp s) (cl_srandom s) v (cl_cv s) (cl_sh s) (cl_now s) (cl_events s) (cl_queued s).
Definition set_cl_cv (v : bool) (s : Client12) : Client12 :=
  mkClient12 (cl_state s) (cl_eng s) (cl_random s) (cl_sid s) (cl_cookie s) (cl_srtp s) (cl_srandom s) (cl_certs s) v (cl_sh s) (cl_now s) (cl_events s) (cl_queued s).
Definition set_cl_sh (v : option bytes) (s : Client12) : Client12 :=
  mkClient12 (cl_state s) (cl_eng s) (cl_random s) (cl_sid s) (cl_cookie s) (cl_srtp s) (cl_srandom s) (cl_certs s) (cl_cv s) v (cl_now s) (cl_events s) (cl_queued s).
Definition set_cl_now (v : N) (s : Client12) : Client12 :=
  mkClient12 (cl_state s) (cl_eng s) (cl_random s) (cl_sid s) (cl_cookie s) (cl_srtp s) (cl_srandom s) (cl_certs s) (cl_cv s) (cl_sh s) v (cl_events s) (cl_queued s).
Definition set_cl_events (v : list LocalEvent12) (s : Client12) : Client12 :=
  mkClient12 (cl_state s) (cl_eng s) (cl_random s) (cl_sid s) (cl_cookie s) (cl_srtp s) (cl_srandom s) (cl_certs s) (cl_cv s) (cl_sh s) (cl_now s) v (cl_queued s).
Definition set_cl_queued (v : list bytes) (s : Client12) : Client12 :=
  mkClient12 (cl_state s) (cl_eng s) (cl_random s) (cl_sid s) (cl_cookie s) (cl_srtp s) (cl_srandom s) (cl_certs s) (cl_cv s) (cl_sh s) (cl_now s) (cl_events s) v.

(** src/error.rs:684-692 [into_public_error] as used by [handle_packet] and
    [handle_timeout]: transient errors become success. *)
Definition public {S} (m : M S unit) : M S unit :=
  fun s => match m s with
           | (Err ETransient, s') => (Ok tt, s')
           | r => r
           end.

(** Operations of the crypto context on the engine that holds it; [false] is
    [CryptoError]. *)
Definition crypto_op (f : Crypto12 -> bool * Crypto12) : M Eng12 unit :=
  fun s => let '(ok, k) := f (en_crypto s) in
           (if ok then Ok tt else Err ECrypto, set_en_crypto k s).

(** src/dtls12/client.rs:1378-1397 [LocalEvent::into_output] *)
Definition event12_output {S} (ev : LocalEvent12) (cap : N) (certs : list bytes) : M S Output :=
  match ev with
  | LE_PeerCert =>
    match certs with
    | [] => panic 1379
    | c :: _ => if len c <=? cap then ret (OPeerCert c) else panic 1380
    end
  | LE_Connected => ret OConnected
  | LE_Keying m p => ret (OKeying m p)
  end.

(** src/dtls12/context.rs:397-419 [serialize_client_certificate]: one
    certificate. *)
Definition create_certificate12 : M Eng12 bytes :=
  let! s := get in
  match auth_cert (k_auth (en_crypto s)) with
  | None => panic 416
  | Some c => ret (s_cert12 [c])
  end.

Section Client12.
Variable E : Env.
Notation CM := (M Client12).

Definition ceng {A} (m : M Eng12 A) : CM A := zoom cl_eng set_cl_eng m.

(** src/dtls12/client.rs:92-113 [new_with_engine] *)
Definition client12_new (e : Eng12) (now : N) : Client12 :=
  mkClient12 CS_SendClientHello (set_en_client true e) None None None None None [] false None
             now [] [].

(** src/types.rs:48-60 [Random::new_with_time]: four bytes of Unix time, then 28
    random bytes.  Simplified: the conversion of [Instant] to Unix time
    (src/time_tricks.rs) is [now] in seconds. *)
Definition random_with_time (now : N) : M Eng12 bytes :=
  let! r := rand_bytes E 28 in ret (be 4 (now / sec) ++ r).

(** ** Messages *)

(** src/crypto/validation/mod.rs:61-64 [has_ecdh] *)
Definition has_ecdh : bool := existsb suite12_has_ecc (provider_suites12 E).

(** src/dtls12/message/client_hello.rs:48-120 [with_extensions];
    [SignatureAlgorithmsExtension::default] is all supported pairs,
    [ECPointFormatsExtension::default] the uncompressed format,
    [UseSrtpExtension::default] the profiles by preference. *)
Definition ch12_extensions (cfg : Config) : list (N * bytes) :=
  (if has_ecdh then [(X_GROUPS, s_groups12 (cfg_groups E cfg)); (X_POINTS, s_points12 [0])] else []) ++
  [(X_SIGALGS, s_sigalgs12 sigalgs12_supported);
   (X_SRTP, s_srtp [SRTP_GCM256; SRTP_GCM128; SRTP_SHA1_80] []);
   (X_EMS, [])].

(** src/dtls12/client.rs:1228-1235: the offered cipher suites *)
Definition offered_suites12 (s : Eng12) : list N :=
  firstn 4 (filter (suite_compatible (k_auth (en_crypto s))) (cfg_suites12 E (en_cfg s))).

(** src/dtls12/client.rs:1218-1260 [handshake_create_client_hello] *)
Definition create_client_hello (cookie random sid : bytes) : M Eng12 bytes :=
  let! s := get in
  ret (s_ch12 (mkCH12 V_DTLS12 random sid cookie (offered_suites12 s) [0]
                      (ch12_extensions (en_cfg s)))).

(** src/dtls12/client.rs:1268-1334 [handshake_create_client_key_exchange] *)
Definition create_client_key_exchange : M Eng12 bytes :=
  let! s := get in
  match en_suite s with
  | None => fail EInvalidState
  | Some cs =>
    match suite12_kx cs with
    | KX_ECDHE =>
      match k_kx_group (en_crypto s) with
      | None => panic 1286
      | Some _ =>
        match maybe_init_kx (en_crypto s) with
        | None => fail ECrypto
        | Some (pk, k) => modify (set_en_crypto k) ;;; ret (s_cke12 (CKE_ecdh pk))
        end
      end
    | KX_PSK =>
      let! identity := of_opt EPsk (cfg_identity (en_cfg s)) in
      let! resolve := of_opt EPsk (cfg_resolver (en_cfg s)) in
      let! psk := of_opt EPsk (resolve identity) in
      modify (fun s => set_en_crypto (set_k_psk (Some psk) (en_crypto s)) s) ;;;
      crypto_op (fun k => match compute_psk_pms k with Some k' => (true, k') | None => (false, k) end) ;;;
      ret (s_cke12 (CKE_psk identity))
    | KX_UNKNOWN => fail (ESecurity SE_other)
    end
  end.

(** src/dtls12/client.rs:1336-1374 [handshake_create_certificate_verify] *)
Definition create_certificate_verify : M Eng12 bytes :=
  let! s := get in
  match auth_hash (k_auth (en_crypto s)), auth_sigalg (k_auth (en_crypto s)) with
  | Some h, Some sg =>
    let! t := draw in
    match sign_data E (k_auth (en_crypto s)) (en_transcript s) h t with
    | None => fail ECrypto
    | Some sig => ret (s_signed12 (mk_sigalg h sg, sig))
    end
  | _, _ => panic 1346
  end.

(** ** States *)

(** src/dtls12/client.rs:345-374 *)
Definition c_send_client_hello : CM CState12 :=
  let! c := get in
  match cl_random c with
  | None => panic 349
  | Some random =>
    let sid := match cl_sid c with Some x => x | None => [] end in
    let cookie := match cl_cookie c with Some x => x | None => [] end in
    ceng (flight_begin E) ;;;
    ceng (create_handshake E MT_ClientHello (create_client_hello cookie random sid)) ;;;
    ret (match cl_cookie c with None => CS_AwaitHelloVerifyRequest | Some _ => CS_AwaitServerHello end)
  end.

(** src/dtls12/client.rs:377-427 *)
Definition c_await_hello_verify_request : CM CState12 :=
  let! c := get in
  if has_complete_handshake (cl_eng c) MT_ServerHello then ret CS_AwaitServerHello
  else
    let! o := ceng (next_handshake MT_HelloVerifyRequest) in
    match o with
    | None => ret CS_AwaitHelloVerifyRequest
    | Some m =>
      match m_body m with
      | B_HelloVerifyRequest v cookie =>
        if negb ((v =? V_DTLS12) || (v =? V_DTLS10)) then fail (ESecurity SE_version)
        else
          modify (set_cl_cookie (Some cookie)) ;;;
          ceng reset_client_for_hvr ;;;
          ret CS_SendClientHello
      | _ => panic 398
      end
    end.

(** src/dtls12/client.rs:508-531: the extensions of ServerHello *)
Fixpoint sh12_extensions (ems : bool) (es : list (N * bytes)) : CM bool :=
  match es with
  | [] => ret ems
  | (t, d) :: r =>
    (if t =? X_SRTP then
       match p_srtp d with
       | None => fail ETransient
       | Some (p :: _, _) => modify (set_cl_srtp (Some p))
       | Some ([], _) => ret tt
       end
     else ret tt) ;;;
    sh12_extensions (ems || (t =? X_EMS)) r
  end.

(** src/dtls12/client.rs:429-552 *)
Definition c_await_server_hello : CM CState12 :=
  let! o := ceng (next_handshake MT_ServerHello) in
  match o with
  | None => ret CS_AwaitServerHello
  | Some m =>
    match m_body m with
    | B_ServerHello h =>
      let! c := get in
      let cs := sh_suite h in
      if negb (sh_version h =? V_DTLS12) then fail (ESecurity SE_version)
      else if negb (sh_comp h =? 0) then fail (ESecurity SE_compression)
      else if negb (memN cs suites12_supported) then fail (ESecurity SE_other)
      else if negb (suite_compatible (k_auth (en_crypto (cl_eng c))) cs)
           then fail (ESecurity SE_suite_incompatible)
      else if negb (suite_allowed E (cl_eng c) cs) then fail (ESecurity SE_suite_disallowed)
      else
        ceng (set_cipher_suite E cs) ;;;
        modify (set_cl_sid (Some (sh_sid h))) ;;;
        modify (set_cl_srandom (Some (sh_random h))) ;;;
        match sh_exts h with
        | None => fail EIncompleteSH
        | Some es =>
          let! ems := sh12_extensions false es in
          if negb ems then fail (ESecurity SE_no_ems)
          else ret (if suite12_is_psk cs then CS_AwaitServerKeyExchange else CS_AwaitCertificate)
        end
    | _ => panic 440
    end
  end.

(** src/dtls12/client.rs:554-597 *)
Definition c_await_certificate : CM CState12 :=
  let! o := ceng (next_handshake MT_Certificate) in
  match o with
  | None => ret CS_AwaitCertificate
  | Some m =>
    match m_body m with
    | B_Certificate [] => fail ECertificate
    | B_Certificate certs =>
      modify (fun c => set_cl_certs (cl_certs c ++ certs) c) ;;;
      ret CS_AwaitServerKeyExchange
    | _ => panic 565
    end
  end.

(** src/dtls12/client.rs:675-683: what the server signs *)
Definition ske_signed_data (crandom srandom : bytes) (curve group : N) (pub : bytes) : bytes :=
  crandom ++ srandom ++ be 1 curve ++ be 2 group ++ be 1 (len pub) ++ pub.

(** src/dtls12/client.rs:611-742 *)
Definition c_await_server_key_exchange_ecdhe : CM CState12 :=
  let! o := ceng (next_handshake MT_ServerKeyExchange) in
  match o with
  | None => ret CS_AwaitServerKeyExchange
  | Some m =>
    match m_body m with
    | B_ServerKeyExchange (SKE_ecdh curve group pub (Some (alg, sig))) =>
      let! c := get in
      match cl_random c, cl_srandom c with
      | Some cr, Some sr =>
        let! cs := of_opt EInvalidState (en_suite (cl_eng c)) in
        if negb (memN alg sigalgs12_supported) then fail ECrypto
        else if match suite12_sig cs with
                | Some sg => negb (sigalg_sig alg =? sg)
                | None => false
                end then fail ECrypto
        else
          match cl_certs c with
          | [] => panic 712
          | cert :: _ =>
            if e_verify E cert (ske_signed_data cr sr curve group pub) sig
                 (sigalg_hash alg) (sigalg_sig alg)
            then
              let! t := ceng draw in
              ceng (crypto_op (process_ecdh_params E group t pub)) ;;;
              ret CS_AwaitCertificateRequest
            else fail ECrypto
          end
      | _, _ => panic 665
      end
    | B_ServerKeyExchange _ => fail EUnexpected
    | _ => panic 626
    end
  end.

(** src/dtls12/client.rs:744-788 *)
Definition c_await_server_key_exchange_psk : CM CState12 :=
  let! c := get in
  if has_complete_handshake (cl_eng c) MT_ServerHelloDone then ret CS_AwaitServerHelloDone
  else
    let! o := ceng (next_handshake MT_ServerKeyExchange) in
    match o with
    | None => ret CS_AwaitServerKeyExchange
    | Some m =>
      match m_body m with
      | B_ServerKeyExchange (SKE_psk _) => ret CS_AwaitServerHelloDone
      | B_ServerKeyExchange _ => fail EUnexpected
      | _ => panic 765
      end
    end.

(** src/dtls12/client.rs:599-609 *)
Definition c_await_server_key_exchange : CM CState12 :=
  let! c := get in
  let! cs := of_opt EInvalidState (en_suite (cl_eng c)) in
  if suite12_is_psk cs then c_await_server_key_exchange_psk
  else c_await_server_key_exchange_ecdhe.

(** src/dtls12/client.rs:790-838; [supports_hash_algorithm]:
    src/dtls12/message/certificate_request.rs:109-113 *)
Definition c_await_certificate_request : CM CState12 :=
  let! c := get in
  if has_complete_handshake (cl_eng c) MT_ServerHelloDone then ret CS_AwaitServerHelloDone
  else
    let! o := ceng (next_handshake MT_CertificateRequest) in
    match o with
    | None => ret CS_AwaitCertificateRequest
    | Some m =>
      match m_body m with
      | B_CertificateRequest cr =>
        match auth_hash (k_auth (en_crypto (cl_eng c))) with
        | None => panic 820
        | Some h =>
          if negb (existsb (fun a => sigalg_hash a =? h) (cr_sigalgs cr)) then fail ECertificate
          else modify (set_cl_cv true) ;;; ret CS_AwaitServerHelloDone
        end
      | _ => panic 810
      end
    end.

(** src/dtls12/client.rs:840-883 *)
Definition c_await_server_hello_done : CM CState12 :=
  let! o := ceng (next_handshake MT_ServerHelloDone) in
  match o with
  | None => ret CS_AwaitServerHelloDone
  | Some m =>
    match m_body m with
    | B_ServerHelloDone =>
      let! c := get in
      let! cs := of_opt EInvalidState (en_suite (cl_eng c)) in
      if suite12_is_psk cs then ret CS_SendClientKeyExchange
      else if is_nil (cl_certs c) then fail ECertificate
      else
        modify (fun c => set_cl_events (cl_events c ++ [LE_PeerCert]) c) ;;;
        ret (if cl_cv c then CS_SendCertificate else CS_SendClientKeyExchange)
    | _ => panic 851
    end
  end.

(** src/dtls12/client.rs:885-897 *)
Definition c_send_certificate : CM CState12 :=
  ceng (flight_begin E) ;;;
  ceng (create_handshake E MT_Certificate create_certificate12) ;;;
  ret CS_SendClientKeyExchange.

(** src/dtls12/client.rs:899-932 *)
Definition c_send_client_key_exchange : CM CState12 :=
  let! c := get in
  when (negb (cl_cv c)) (ceng (flight_begin E)) ;;;
  ceng (create_handshake E MT_ClientKeyExchange create_client_key_exchange) ;;;
  let! c := get in
  let! cs := of_opt EInvalidState (en_suite (cl_eng c)) in
  modify (set_cl_sh (Some (transcript_hash E (cl_eng c) (suite12_hash cs)))) ;;;
  ret (if cl_cv c then CS_SendCertificateVerify else CS_SendChangeCipherSpec).

(** src/dtls12/client.rs:934-944 *)
Definition c_send_certificate_verify : CM CState12 :=
  ceng (create_handshake E MT_CertificateVerify create_certificate_verify) ;;;
  ret CS_SendChangeCipherSpec.

(** src/dtls12/client.rs:961-1027 [derive_keys] *)
Definition c_derive_keys : CM unit :=
  let! c := get in
  let! cs := of_opt EInvalidState (en_suite (cl_eng c)) in
  let! sr := of_opt EInvalidState (cl_srandom c) in
  match cl_random c with
  | None => panic 983
  | Some cr =>
    let! sh := of_opt EInvalidState (cl_sh c) in
    ceng (crypto_op (fun k => match derive_ems E sh (suite12_hash cs) k with
                              | Some k' => (true, k') | None => (false, k) end)) ;;;
    ceng (crypto_op (derive_keys E cs cr sr))
  end.

(** src/dtls12/client.rs:946-959 *)
Definition c_send_change_cipher_spec : CM CState12 :=
  c_derive_keys ;;;
  ceng (create_record E CT_CCS 0 true [1]) ;;;
  ret CS_SendFinished.

(** src/dtls12/client.rs:1029-1046 *)
Definition c_send_finished : CM CState12 :=
  ceng (create_handshake E MT_Finished (generate_verify_data E true)) ;;;
  ret CS_AwaitChangeCipherSpec.

(** src/dtls12/client.rs:1048-1065 *)
Definition c_await_change_cipher_spec : CM CState12 :=
  let! o := ceng (next_record CT_CCS) in
  match o with
  | None => ret CS_AwaitChangeCipherSpec
  | Some _ =>
    ceng drop_pending_ccs ;;;
    ceng (enable_peer_encryption E) ;;;
    ret CS_AwaitNewSessionTicket
  end.

(** src/dtls12/client.rs:1067-1092 *)
Definition c_await_new_session_ticket : CM CState12 :=
  let! c := get in
  if has_complete_handshake (cl_eng c) MT_Finished then ret CS_AwaitFinished
  else
    let! o := ceng (next_handshake MT_NewSessionTicket) in
    match o with
    | None => ret CS_AwaitNewSessionTicket
    | Some m =>
      match m_body m with
      | B_NewSessionTicket _ => ret CS_AwaitFinished
      | _ => panic 1084
      end
    end.

(** src/dtls12/client.rs:1094-1184 *)
Definition c_await_finished : CM CState12 :=
  let! expected := ceng (generate_verify_data E false) in
  let! o := ceng (next_handshake MT_Finished) in
  match o with
  | None => ret CS_AwaitFinished
  | Some m =>
    match m_body m with
    | B_Finished vd =>
      if negb (beqb vd expected) then fail (ESecurity SE_finished)
      else
        ceng flight_stop_resend_timers ;;;
        modify (fun c => set_cl_events (cl_events c ++ [LE_Connected]) c) ;;;
        let! c := get in
        match cl_srtp c with
        | None => ret tt
        | Some p =>
          match en_suite (cl_eng c) with
          | None => panic 1149
          | Some cs =>
            match extract_srtp12 E p (suite12_hash cs) (en_crypto (cl_eng c)) with
            | Some km => modify (fun c => set_cl_events (cl_events c ++ [LE_Keying km p]) c)
            | None => ret tt
            end
          end
        end ;;;
        ceng release_application_data ;;;
        ret CS_AwaitApplicationData
    | _ => panic 1114
    end
  end.

(** src/dtls12/client.rs:1186-1215.  [drain] empties the queue even when sending
    one of the items fails. *)
Definition c_await_application_data : CM CState12 :=
  let! c := get in
  if en_cn_recv (cl_eng c) then
    ceng discard_pending_writes ;;;
    ceng (create_record E CT_ALERT 1 false [1; 0]) ;;;
    ret CS_Closed
  else
    modify (set_cl_queued []) ;;;
    iterM (fun d => ceng (create_record E CT_APP 1 false d)) (cl_queued c) ;;;
    ret CS_AwaitApplicationData.

(** src/dtls12/client.rs:323-343 [State::make_progress] *)
Definition c_step (st : CState12) : CM CState12 :=
  match st with
  | CS_SendClientHello => c_send_client_hello
  | CS_AwaitHelloVerifyRequest => c_await_hello_verify_request
  | CS_AwaitServerHello => c_await_server_hello
  | CS_AwaitCertificate => c_await_certificate
  | CS_AwaitServerKeyExchange => c_await_server_key_exchange
  | CS_AwaitCertificateRequest => c_await_certificate_request
  | CS_AwaitServerHelloDone => c_await_server_hello_done
  | CS_SendCertificate => c_send_certificate
  | CS_SendClientKeyExchange => c_send_client_key_exchange
  | CS_SendCertificateVerify => c_send_certificate_verify
  | CS_SendChangeCipherSpec => c_send_change_cipher_spec
  | CS_SendFinished => c_send_finished
  | CS_AwaitChangeCipherSpec => c_await_change_cipher_spec
  | CS_AwaitNewSessionTicket => c_await_new_session_ticket
  | CS_AwaitFinished => c_await_finished
  | CS_AwaitApplicationData => c_await_application_data
  | CS_Closed => ret CS_Closed
  end.

(** src/dtls12/client.rs:263-276 [make_progress].  The loop visits every state at
    most once, [SendClientHello] and the state before it twice; the fuel is never
    exhausted (proved in Client12Proofs). *)
Fixpoint c_progress (fuel : nat) : CM unit :=
  match fuel with
  | O => panic 9003
  | S fuel' =>
    let! c := get in
    let! st := c_step (cl_state c) in
    if cstate12_eqb (cl_state c) st then ret tt
    else modify (set_cl_state st) ;;; c_progress fuel'
  end.
Definition c_make_progress : CM unit := c_progress 40.

(** ** API *)

(** src/dtls12/client.rs:189-198 [handle_packet] *)
Definition client12_handle_packet (p : bytes) : CM unit :=
  public (ceng (eng12_parse_packet E p) ;;; c_make_progress).

(** src/dtls12/client.rs:200-205 [poll_output] *)
Definition client12_poll_output (cap : N) : CM Output :=
  let! c := get in
  match cl_events c with
  | ev :: r => modify (set_cl_events r) ;;; event12_output ev cap (cl_certs c)
  | [] => ceng (eng12_poll_output cap (cl_now c))
  end.

(** src/dtls12/client.rs:207-220 [handle_timeout] *)
Definition client12_handle_timeout (now : N) : CM unit :=
  modify (set_cl_now now) ;;;
  let! c := get in
  (match cl_random c with
   | Some _ => ret tt
   | None => let! r := ceng (random_with_time now) in modify (set_cl_random (Some r))
   end) ;;;
  ceng (eng12_handle_timeout E now) ;;;
  public c_make_progress.

(** src/dtls12/client.rs:222-242 [send_application_data] *)
Definition client12_send (d : bytes) : CM unit :=
  let! c := get in
  match cl_state c with
  | CS_Closed => fail EClosed
  | CS_AwaitApplicationData => ceng (create_record E CT_APP 1 false d)
  | _ => modify (fun c => set_cl_queued (cl_queued c ++ [d]) c)
  end.

(** src/dtls12/client.rs:244-261 [close] *)
Definition client12_close : CM unit :=
  let! c := get in
  match cl_state c with
  | CS_Closed => ret tt
  | CS_AwaitApplicationData =>
    ceng (create_record E CT_ALERT 1 false [1; 0]) ;;; modify (set_cl_state CS_Closed)
  | _ => ceng eng12_abort ;;; modify (set_cl_state CS_Closed)
  end.

(** src/dtls12/client.rs:115-179 [new_from_hybrid]: the result of the final
    [handle_timeout(now)?] together with the client. *)
Definition client12_from_hybrid (random fragment : bytes) (cfg : Config) (auth : AuthMode)
  (now : N) : res unit * Client12 :=
  let e := eng12_new E cfg auth in
  let e := set_en_client true e in
  let e := set_en_next_hs 1 e in
  let e := set_en_transcript (en_transcript e ++ fragment) e in
  let e := set_en_seq0 (en_seq0 e + 1) e in
  client12_handle_timeout now
    (mkClient12 CS_AwaitHelloVerifyRequest e (Some random) None None None None [] false None
                now [] []).

End Client12.
