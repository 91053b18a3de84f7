(** src/dtls12/server.rs: the DTLS 1.2 server. *)
From Verif Require Import Prelude Types Codec Codec12 Record12 Monad Timer Env Config Aead Prf
  Window Context12 Engine12 Client12.

(** src/dtls12/server.rs:107-125 [State] *)
Inductive SState12 :=
| SS_AwaitClientHello | SS_SendServerHello | SS_SendCertificate | SS_SendServerKeyExchange
| SS_SendCertificateRequest | SS_SendServerHelloDone | SS_AwaitCertificate
| SS_AwaitClientKeyExchange | SS_AwaitCertificateVerify | SS_AwaitChangeCipherSpec
| SS_AwaitFinished | SS_SendChangeCipherSpec | SS_SendFinished | SS_AwaitApplicationData
| SS_Closed.

Definition sstate12_eq_dec (a b : SState12) : {a = b} + {a <> b}.
Proof. decide equality. Defined.
Definition sstate12_eqb (a b : SState12) : bool :=
  if sstate12_eq_dec a b then true else false.

(** src/dtls12/server.rs:47-105 [Server].  Not modelled: [session_id] (never set),
    [extension_data] and [defragment_buffer] (scratch space). *)
Record Server12 := mkServer12 {
  sv_state : SState12; (* state *)
  sv_eng : Eng12; (* engine *)
  sv_random : option bytes; (* random *)
  sv_secret : bytes; (* cookie_secret *)
  sv_srtp : option N; (* negotiated_srtp_profile *)
  sv_groups : option (list N); (* client_supported_groups *)
  sv_sigalgs : option (list N); (* client_signature_algorithms *)
  sv_crandom : option bytes; (* client_random *)
  sv_certs : list bytes; (* client_certificates *)
  sv_sh : option bytes; (* captured_session_hash *)
  sv_psk_valid : option bool; (* psk_valid *)
  sv_now : N; (* last_now *)
  sv_events : list LocalEvent12; (* local_events *)
  sv_queued : list bytes }. (* queued_data *)

(** Field updates of [Server12] ([self.f = v] in the Rust code). *)
Definition set_sv_state (v : SState12) (s : Server12) : Server12 :=
  mkServer12 v (sv_eng s) (sv_random s) (sv_secret s) (sv_srtp s) (sv_groups s) (sv_sigalgs s) (sv_crandom s) (sv_certs s) (sv_sh s) (sv_psk_valid s) (sv_now s) (sv_events s) (sv_queued s).
Definition set_sv_eng (v : Eng12) (s : Server12) : Server12 :=
  mkServer12 (sv_state s) v (sv_random s) (sv_secret s) (sv_srtp s) (sv_groups s) (sv_sigalgs s) (sv_crandom s) (sv_certs s) (sv_sh s) (sv_psk_valid s) (sv_now s) (sv_events s) (sv_queued s).
Definition set_sv_random (v : option bytes) (s : Server12) : Server12 :=
  mkServer12 (sv_state s) (sv_eng s) v (sv_secret s) (sv_srtp s) (sv_groups s) (sv_sigalgs s) (sv_crandom s) (sv_certs s) (sv_sh s) (sv_psk_valid s) (sv_now s) (sv_events s) (sv_queued s).
Definition set_sv_secret (v : bytes) (s : Server12) : Server12 :=
  mkServer12 (sv_state s) (sv_eng s) (sv_random s) v (sv_srtp s) (sv_groups s) (sv_sigalgs s) (sv_crandom s) (sv_certs s) (sv_sh s) (sv_psk_valid s) (sv_now s) (sv_events s) (sv_queued s).
Definition set_sv_srtp (v : option N) (s : Server12) : Server12 :=
  mkServer12 (sv_state s) (sv_eng s) (sv_random s) (sv_secret s) v (sv_groups s) (sv_sigalgs s) (sv_crandom s) (sv_certs s) (sv_sh s) (sv_psk_valid s) (sv_now s) (sv_events s) (sv_queued s).
Definition set_sv_groups (v : option (list N)) (s : Server12) : Server12 :=
  mkServer12 (sv_state s) (sv_eng s) (sv_random s) (sv_secret s) (sv_srtp s) v (sv_sigalgs s) (sv_crandom s) (sv_certs s) (sv_sh s) (sv_psk_valid s) (sv_now s) (sv_events s) (sv_queued s).
Definition set_sv_sigalgs (v : option (list N)) (s : Server12) : Server12 :=
  mkServer12 (sv_state s) (sv_eng s) (sv_random s) (sv_secret s) (sv_srtp s) (sv_groups s) v (sv_crandom s) (sv_certs s) (sv_sh s) (sv_psk_valid s) (sv_now s) (sv_events s) (sv_queued s).
Definition set_sv_crandom (v : option bytes) (s : Server12) : Server12 :=
  mkServer12 (sv_state s) (sv_eng s) (sv_random s) (sv_secret s) (sv_srtp s) (sv_groups s) (sv_sigalgs s) v (sv_certs s) (sv_sh s) (sv_psk_valid s) (sv_now s) (sv_events s) (sv_queued s).
Definition set_sv_certs (v : list bytes) (s : Server12) : Server12 :=
  mkServer12 (sv_state s) (sv_eng s) (sv_random s) (sv_secret s) (sv_srtp s) (sv_groups s) (sv_sigalgs s) (sv_crandom s) v (sv_sh s) (sv_psk_valid s) (sv_now s) (sv_events s) (sv_queued s).
Definition set_sv_sh (v : option bytes) (s : Server12) : Server12 :=
  mkServer12 (sv_state s) (sv_eng s) (sv_random s) (sv_secret s) (sv_srtp s) (sv_groups s) (sv_sigalgs s) (sv_crandom s) (sv_certs s) v (sv_psk_valid s) (sv_now s) (sv_events s) (sv_queued s).
Definition set_sv_psk_valid (v : option bool) (s : Server12) : Server12 :=
  mkServer12 (sv_state s) (sv_eng s) (sv_random s) (sv_secret s) (sv_srtp s) (sv_groups s) (sv_sigalgs s) (sv_crandom s) (sv_certs s) (sv_sh s) v (sv_now s) (sv_events s) (sv_queued s).
Definition set_sv_now (v : N) (s : Server12) : Server12 :=
  mkServer12 (sv_state s) (sv_eng s) (sv_random s) (sv_secret s) (sv_srtp s) (sv_groups s) (sv_sigalgs s) (sv_crandom s) (sv_certs s) (sv_sh s) (sv_psk_valid s) v (sv_events s) (sv_queued s).
Definition set_sv_events (v : list LocalEvent12) (s : Server12) : Server12 :=
  mkServer12 (sv_state s) (sv_eng s) (sv_random s) (sv_secret s) (sv_srtp s) (sv_groups s) (sv_sigalgs s) (sv_crandom s) (sv_certs s) (sv_sh s) (sv_psk_valid s) (sv_now s) v (sv_queued s).
Definition set_sv_queued (v : list bytes) (s : Server12) : Server12 :=
  mkServer12 (sv_state s) (sv_eng s) (sv_random s) (sv_secret s) (sv_srtp s) (sv_groups s) (sv_sigalgs s) (sv_crandom s) (sv_certs s) (sv_sh s) (sv_psk_valid s) (sv_now s) (sv_events s) v.

Section Server12.
Variable E : Env.
Notation SM := (M Server12).

Definition seng {A} (m : M Eng12 A) : SM A := zoom sv_eng set_sv_eng m.

(** src/dtls12/server.rs:157-181 [new_with_engine]; the cookie secret is the next
    draw of the engine's generator. *)
Definition server12_new (e : Eng12) (now : N) : Server12 :=
  let e := set_en_client false e in
  mkServer12 SS_AwaitClientHello (set_en_orc (en_orc e + 1) e) None (e_rand E (en_orc e) 32)
             None None None None [] None None now [] [].

(** src/dtls12/server.rs:183-185 [into_client]; src/dtls12/client.rs:181-183
    [into_server] *)
Definition server12_into_client (s : Server12) : Client12 := client12_new (sv_eng s) (sv_now s).
Definition client12_into_server (c : Client12) : Server12 := server12_new (cl_eng c) (cl_now c).

(** ** Selection *)

(** src/dtls12/server.rs:1147-1164 [compute_cookie] *)
Definition compute_cookie (secret random : bytes) : option bytes := e_hmac E H_SHA256 secret random.

(** src/dtls12/server.rs:1166-1180 [verify_cookie] *)
Definition verify_cookie (secret random cookie : bytes) : bool :=
  Nat.eqb (length cookie) 32 &&
  match compute_cookie secret random with
  | Some expected => beqb expected cookie
  | None => false
  end.

(** src/dtls12/server.rs:1334-1352 [select_named_group] *)
Definition select_named_group (client : option (list N)) (server : list N) : option N :=
  match client with
  | Some gs => find (fun sg => memN sg gs) server
  | None => hd_error server
  end.

(** src/dtls12/server.rs:1354-1383 [select_ske_signature_algorithm] *)
Definition select_ske_sigalg (client : option (list N)) (our_sig our_hash : N) (hashes : list N) : N :=
  let pref := if our_hash =? H_SHA384 then [H_SHA384; H_SHA256] else [H_SHA256; H_SHA384] in
  let choice :=
    match client with
    | None => None
    | Some l =>
      first_some (fun h => if memN h hashes
                           then find (fun a => (sigalg_sig a =? our_sig) && (sigalg_hash a =? h)) l
                           else None) pref
    end in
  match choice with Some a => a | None => mk_sigalg our_hash our_sig end.

(** src/dtls12/server.rs:1385-1404 [select_certificate_request_sig_algs] *)
Definition select_cr_sigalgs (client : option (list N)) : list N :=
  match client with
  | Some l => filter (fun a => memN a sigalgs12_supported) l
  | None => []
  end.

(** src/dtls12/server.rs:410-419: client order *)
Definition select_suite12 (s : Eng12) (offered : list N) : option N :=
  find (fun cs => suite_allowed E s cs && suite_compatible (k_auth (en_crypto s)) cs) offered.

(** src/dtls12/server.rs:465-474: server order *)
Definition select_srtp12 (profiles : list N) : option N :=
  find (fun p => memN p profiles) [SRTP_GCM256; SRTP_GCM128; SRTP_SHA1_80].

(** src/dtls12/server.rs:433-471: the extensions of ClientHello.  [None]: a parse
    error. *)
Record ChExts := mkChExts {
  x_ems : bool; x_srtp : option (list N); x_groups : option (list N); x_sigs : option (list N) }.

Fixpoint ch12_read_exts (acc : ChExts) (es : list (N * bytes)) : option ChExts :=
  match es with
  | [] => Some acc
  | (t, d) :: r =>
    if t =? X_SRTP then
      match p_srtp d with
      | Some (ps, _) => ch12_read_exts (mkChExts (x_ems acc) (Some ps) (x_groups acc) (x_sigs acc)) r
      | None => None
      end
    else if t =? X_EMS then
      ch12_read_exts (mkChExts true (x_srtp acc) (x_groups acc) (x_sigs acc)) r
    else if t =? X_GROUPS then
      match p_groups12 d with
      | Some gs => ch12_read_exts (mkChExts (x_ems acc) (x_srtp acc) (Some gs) (x_sigs acc)) r
      | None => None
      end
    else if t =? X_POINTS then
      match p_points12 d with Some _ => ch12_read_exts acc r | None => None end
    else if t =? X_SIGALGS then
      match p_sigalgs12 d with
      | Some l => ch12_read_exts (mkChExts (x_ems acc) (x_srtp acc) (x_groups acc) (Some l)) r
      | None => ch12_read_exts acc r
      end
    else ch12_read_exts acc r
  end.

(** ** Messages *)

(** src/dtls12/server.rs:1188-1220 [handshake_create_server_hello],
    src/dtls12/message/server_hello.rs:45-83 [with_extensions] *)
Definition create_server_hello (random : bytes) (srtp : option N) : M Eng12 bytes :=
  let! s := get in
  match en_suite s with
  | None => fail EInvalidState
  | Some cs =>
    ret (s_sh12 (mkSH12 V_DTLS12 random [] cs 0
      (Some ((match srtp with Some p => [(X_SRTP, s_srtp [p] [])] | None => [] end) ++
             [(X_EMS, []); (X_RENEG, [0])]))))
  end.

(** src/dtls12/server.rs:1222-1303 [handshake_create_server_key_exchange] *)
Definition create_server_key_exchange (crandom srandom : bytes) (group alg : N) : M Eng12 bytes :=
  let! s := get in
  match en_suite s with
  | None => fail EInvalidState
  | Some cs =>
    match suite12_kx cs with
    | KX_ECDHE =>
      let! t := draw in
      let! s := get in
      let '(o, k) := init_ecdh_server E group t (en_crypto s) in
      modify (set_en_crypto k) ;;;
      match o with
      | None => fail ECrypto
      | Some pub =>
        let! t := draw in
        match sign_data E (k_auth k) (ske_signed_data crandom srandom 3 group pub)
                (sigalg_hash alg) t with
        | None => fail ECrypto
        | Some sig =>
          match maybe_init_kx k with
          | None => panic 1279
          | Some (pub, k) =>
            modify (set_en_crypto k) ;;;
            ret (s_ske12 true (SKE_ecdh 3 group pub (Some (alg, sig))))
          end
        end
      end
    | _ => fail (ESecurity SE_other)
    end
  end.

(** src/dtls12/server.rs:1305-1332 [handshake_serialize_certificate_request] *)
Definition certificate_request12 (algs : list N) : bytes :=
  s_cr12 (mkCR12 [64] (match algs with [] => sigalgs12_supported | _ => algs end) []).

(** ** States *)

(** src/dtls12/server.rs:318-491 *)
Definition s_await_client_hello : SM SState12 :=
  let! o := seng (next_handshake MT_ClientHello) in
  match o with
  | None => ret SS_AwaitClientHello
  | Some m =>
    match m_body m with
    | B_ClientHello ch =>
      if negb (ch_version ch =? V_DTLS12) then fail (ESecurity SE_version)
      else if negb (memN 0 (ch_comps ch)) then fail (ESecurity SE_compression)
      else
        let! s := get in
        let cookie_valid := negb (c_cookie (en_cfg (sv_eng s))) ||
                            verify_cookie (sv_secret s) (ch_random ch) (ch_cookie ch) in
        if negb cookie_valid then
          match compute_cookie (sv_secret s) (ch_random ch) with
          | None => fail ECrypto
          | Some cookie =>
            seng (flight_begin E) ;;;
            seng (create_handshake E MT_HelloVerifyRequest (ret (s_hvr12 (V_DTLS10, cookie)))) ;;;
            seng reset_server_for_hvr ;;;
            ret SS_AwaitClientHello
          end
        else
          match select_suite12 (sv_eng s) (ch_suites ch) with
          | None => fail (ESecurity SE_no_common_suite)
          | Some cs =>
            seng (set_cipher_suite E cs) ;;;
            modify (set_sv_crandom (Some (ch_random ch))) ;;;
            match ch12_read_exts (mkChExts false None None None) (ch_exts ch) with
            | None => fail ETransient
            | Some x =>
              if negb (x_ems x) then fail (ESecurity SE_no_ems)
              else
                match x_srtp x with
                | Some ps => modify (set_sv_srtp (select_srtp12 ps))
                | None => ret tt
                end ;;;
                modify (set_sv_groups (x_groups x)) ;;;
                modify (set_sv_sigalgs (x_sigs x)) ;;;
                ret SS_SendServerHello
            end
          end
    | _ => panic 329
    end
  end.

(** src/dtls12/server.rs:493-529 *)
Definition s_send_server_hello : SM SState12 :=
  seng (flight_begin E) ;;;
  let! s := get in
  match sv_random s with
  | None => panic 501
  | Some random =>
    seng (create_handshake E MT_ServerHello (create_server_hello random (sv_srtp s))) ;;;
    let! s := get in
    let! cs := of_opt EInvalidState (en_suite (sv_eng s)) in
    ret (if suite12_is_psk cs then SS_SendServerKeyExchange else SS_SendCertificate)
  end.

(** src/dtls12/server.rs:531-539 *)
Definition s_send_certificate : SM SState12 :=
  seng (create_handshake E MT_Certificate create_certificate12) ;;;
  ret SS_SendServerKeyExchange.

(** src/dtls12/server.rs:626-647 *)
Definition s_send_server_key_exchange_psk : SM SState12 :=
  let! s := get in
  match cfg_hint (en_cfg (sv_eng s)) with
  | None => ret SS_SendServerHelloDone
  | Some hint =>
    seng (create_handshake E MT_ServerKeyExchange (ret (s_ske12 true (SKE_psk hint)))) ;;;
    ret SS_SendServerHelloDone
  end.

(** src/dtls12/server.rs:541-624 *)
Definition s_send_server_key_exchange : SM SState12 :=
  let! s := get in
  let! cs := of_opt EInvalidState (en_suite (sv_eng s)) in
  if suite12_is_psk cs then s_send_server_key_exchange_psk
  else
    let! cr := of_opt EInvalidState (sv_crandom s) in
    match sv_random s with
    | None => panic 556
    | Some sr =>
      match select_named_group (sv_groups s) (cfg_groups E (en_cfg (sv_eng s))) with
      | None => fail (match sv_groups s with
                      | Some _ => ESecurity SE_no_common_group
                      | None => ECrypto
                      end)
      | Some group =>
        let auth := k_auth (en_crypto (sv_eng s)) in
        match auth_sigalg auth, auth_hash auth with
        | Some sg, Some h =>
          let alg := select_ske_sigalg (sv_sigalgs s) sg h (auth_hashes auth) in
          seng (create_handshake E MT_ServerKeyExchange
                  (create_server_key_exchange cr sr group alg)) ;;;
          ret (if c_req_cert (en_cfg (sv_eng s)) then SS_SendCertificateRequest
               else SS_SendServerHelloDone)
        | _, _ => panic 592
        end
      end
    end.

(** src/dtls12/server.rs:649-666 *)
Definition s_send_certificate_request : SM SState12 :=
  let! s := get in
  seng (create_handshake E MT_CertificateRequest
          (ret (certificate_request12 (select_cr_sigalgs (sv_sigalgs s))))) ;;;
  ret SS_SendServerHelloDone.

(** src/dtls12/server.rs:668-689 *)
Definition s_send_server_hello_done : SM SState12 :=
  seng (create_handshake E MT_ServerHelloDone (ret [])) ;;;
  let! s := get in
  let! cs := of_opt EInvalidState (en_suite (sv_eng s)) in
  ret (if suite12_is_psk cs then SS_AwaitClientKeyExchange
       else if c_req_cert (en_cfg (sv_eng s)) then SS_AwaitCertificate
       else SS_AwaitClientKeyExchange).

(** src/dtls12/server.rs:691-736 *)
Definition s_await_certificate : SM SState12 :=
  let! o := seng (next_handshake MT_Certificate) in
  match o with
  | None => ret SS_AwaitCertificate
  | Some m =>
    match m_body m with
    | B_Certificate [] => ret SS_AwaitClientKeyExchange
    | B_Certificate certs =>
      modify (fun s => set_sv_certs (sv_certs s ++ certs) s) ;;;
      modify (fun s => set_sv_events (sv_events s ++ [LE_PeerCert]) s) ;;;
      ret SS_AwaitClientKeyExchange
    | _ => panic 702
    end
  end.

(** src/dtls12/server.rs:751-827: the key exchange part of
    [await_client_key_exchange] *)
Definition s_process_cke (cs : N) (ckx : CKE12) : SM unit :=
  if suite12_is_psk cs then
    match ckx with
    | CKE_ecdh _ => fail EUnexpected
    | CKE_psk identity =>
      let! s := get in
      let! resolve := of_opt EPsk (cfg_resolver (en_cfg (sv_eng s))) in
      let! (psk, valid) :=
        match resolve identity with
        | Some key => ret (key, true)
        | None => let! d := seng (rand_bytes E 32) in ret (d, false)
        end in
      modify (set_sv_psk_valid (Some valid)) ;;;
      seng (modify (fun e => set_en_crypto (set_k_psk (Some psk) (en_crypto e)) e)) ;;;
      seng (crypto_op (fun k => match compute_psk_pms k with
                                | Some k' => (true, k') | None => (false, k) end))
    end
  else
    match ckx with
    | CKE_psk _ => fail EUnexpected
    | CKE_ecdh pub => seng (crypto_op (compute_shared_secret E pub))
    end.

(** src/dtls12/server.rs:738-887 *)
Definition s_await_client_key_exchange : SM SState12 :=
  let! o := seng (next_handshake MT_ClientKeyExchange) in
  match o with
  | None => ret SS_AwaitClientKeyExchange
  | Some m =>
    match m_body m with
    | B_ClientKeyExchange ckx =>
      let! s := get in
      let! cs := of_opt EInvalidState (en_suite (sv_eng s)) in
      s_process_cke cs ckx ;;;
      let! s := get in
      let sh := transcript_hash E (sv_eng s) (suite12_hash cs) in
      modify (set_sv_sh (Some sh)) ;;;
      match sv_crandom s, sv_random s with
      | Some cr, Some sr =>
        seng (crypto_op (fun k => match derive_ems E sh (suite12_hash cs) k with
                                  | Some k' => (true, k') | None => (false, k) end)) ;;;
        seng (crypto_op (derive_keys E cs cr sr)) ;;;
        let! s := get in
        ret (if is_nil (sv_certs s) then SS_AwaitChangeCipherSpec else SS_AwaitCertificateVerify)
      | _, _ => panic 838
      end
    | _ => panic 750
    end
  end.

(** src/dtls12/server.rs:889-948 *)
Definition s_await_certificate_verify : SM SState12 :=
  let! s0 := get in
  let data := en_transcript (sv_eng s0) in
  let! o := seng (next_handshake MT_CertificateVerify) in
  match o with
  | None => ret SS_AwaitCertificateVerify
  | Some m =>
    match m_body m with
    | B_CertificateVerify alg sig =>
      let! s := get in
      match sv_certs s with
      | [] => fail ECertificate
      | cert :: _ =>
        if e_verify E cert data sig (sigalg_hash alg) (sigalg_sig alg)
        then ret SS_AwaitChangeCipherSpec
        else fail ECrypto
      end
    | _ => panic 908
    end
  end.

(** src/dtls12/server.rs:950-967 *)
Definition s_await_change_cipher_spec : SM SState12 :=
  let! o := seng (next_record CT_CCS) in
  match o with
  | None => ret SS_AwaitChangeCipherSpec
  | Some _ =>
    seng drop_pending_ccs ;;;
    seng (enable_peer_encryption E) ;;;
    ret SS_AwaitFinished
  end.

(** src/dtls12/server.rs:969-1040 *)
Definition s_await_finished : SM SState12 :=
  let! expected := seng (generate_verify_data E true) in
  let! o := seng (next_handshake MT_Finished) in
  match o with
  | None => ret SS_AwaitFinished
  | Some m =>
    match m_body m with
    | B_Finished vd =>
      if negb (beqb vd expected) then fail (ESecurity SE_finished)
      else
        let! s := get in
        let psk := match en_suite (sv_eng s) with Some cs => suite12_is_psk cs | None => false end in
        match sv_psk_valid s with
        | None => if psk then panic 1016 else ret SS_SendChangeCipherSpec
        | Some false => fail (ESecurity SE_finished)
        | Some true => ret SS_SendChangeCipherSpec
        end
    | _ => panic 991
    end
  end.

(** src/dtls12/server.rs:1042-1056 *)
Definition s_send_change_cipher_spec : SM SState12 :=
  seng (flight_begin E) ;;;
  seng (create_record E CT_CCS 0 true [1]) ;;;
  ret SS_SendFinished.

(** src/dtls12/server.rs:1058-1112 *)
Definition s_send_finished : SM SState12 :=
  seng (create_handshake E MT_Finished (generate_verify_data E false)) ;;;
  seng flight_stop_resend_timers ;;;
  modify (fun s => set_sv_events (sv_events s ++ [LE_Connected]) s) ;;;
  let! s := get in
  match sv_srtp s with
  | None => ret tt
  | Some p =>
    match en_suite (sv_eng s) with
    | None => panic 1083
    | Some cs =>
      match extract_srtp12 E p (suite12_hash cs) (en_crypto (sv_eng s)) with
      | Some km => modify (fun s => set_sv_events (sv_events s ++ [LE_Keying km p]) s)
      | None => ret tt
      end
    end
  end ;;;
  seng release_application_data ;;;
  ret SS_AwaitApplicationData.

(** src/dtls12/server.rs:1114-1144 *)
Definition s_await_application_data : SM SState12 :=
  let! s := get in
  if en_cn_recv (sv_eng s) then
    seng discard_pending_writes ;;;
    seng (create_record E CT_ALERT 1 false [1; 0]) ;;;
    ret SS_Closed
  else
    modify (set_sv_queued []) ;;;
    iterM (fun d => seng (create_record E CT_APP 1 false d)) (sv_queued s) ;;;
    ret SS_AwaitApplicationData.

(** src/dtls12/server.rs:298-316 [State::make_progress] *)
Definition s_step (st : SState12) : SM SState12 :=
  match st with
  | SS_AwaitClientHello => s_await_client_hello
  | SS_SendServerHello => s_send_server_hello
  | SS_SendCertificate => s_send_certificate
  | SS_SendServerKeyExchange => s_send_server_key_exchange
  | SS_SendCertificateRequest => s_send_certificate_request
  | SS_SendServerHelloDone => s_send_server_hello_done
  | SS_AwaitCertificate => s_await_certificate
  | SS_AwaitClientKeyExchange => s_await_client_key_exchange
  | SS_AwaitCertificateVerify => s_await_certificate_verify
  | SS_AwaitChangeCipherSpec => s_await_change_cipher_spec
  | SS_AwaitFinished => s_await_finished
  | SS_SendChangeCipherSpec => s_send_change_cipher_spec
  | SS_SendFinished => s_send_finished
  | SS_AwaitApplicationData => s_await_application_data
  | SS_Closed => ret SS_Closed
  end.

(** src/dtls12/server.rs:261-274 [make_progress]; the fuel is never exhausted
    (proved in Server12Proofs). *)
Fixpoint s_progress (fuel : nat) : SM unit :=
  match fuel with
  | O => panic 9004
  | S fuel' =>
    let! s := get in
    let! st := s_step (sv_state s) in
    if sstate12_eqb (sv_state s) st then ret tt
    else modify (set_sv_state st) ;;; s_progress fuel'
  end.
Definition s_make_progress : SM unit := s_progress 40.

(** ** API *)

(** src/dtls12/server.rs:191-200 [handle_packet] *)
Definition server12_handle_packet (p : bytes) : SM unit :=
  public (seng (eng12_parse_packet E p) ;;; s_make_progress).

(** src/dtls12/server.rs:202-207 [poll_output] *)
Definition server12_poll_output (cap : N) : SM Output :=
  let! s := get in
  match sv_events s with
  | ev :: r => modify (set_sv_events r) ;;; event12_output ev cap (sv_certs s)
  | [] => seng (eng12_poll_output cap (sv_now s))
  end.

(** src/dtls12/server.rs:209-219 [handle_timeout] *)
Definition server12_handle_timeout (now : N) : SM unit :=
  modify (set_sv_now now) ;;;
  let! s := get in
  (match sv_random s with
   | Some _ => ret tt
   | None => let! r := seng (random_with_time E now) in modify (set_sv_random (Some r))
   end) ;;;
  seng (eng12_handle_timeout E now) ;;;
  public s_make_progress.

(** src/dtls12/server.rs:221-240 [send_application_data] *)
Definition server12_send (d : bytes) : SM unit :=
  let! s := get in
  match sv_state s with
  | SS_Closed => fail EClosed
  | SS_AwaitApplicationData => seng (create_record E CT_APP 1 false d)
  | _ => modify (fun s => set_sv_queued (sv_queued s ++ [d]) s)
  end.

(** src/dtls12/server.rs:242-259 [close] *)
Definition server12_close : SM unit :=
  let! s := get in
  match sv_state s with
  | SS_Closed => ret tt
  | SS_AwaitApplicationData =>
    seng (create_record E CT_ALERT 1 false [1; 0]) ;;; modify (set_sv_state SS_Closed)
  | _ => seng eng12_abort ;;; modify (set_sv_state SS_Closed)
  end.

End Server12.
