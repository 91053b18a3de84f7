(** src/dtls13/server.rs: the DTLS 1.3 server. *)
From Verif Require Import Prelude Types Codec Codec12 Codec13 Record12 Record13 Monad Timer Env
  Config Aead Prf Window Engine12 Client12 Engine13 Client13.

(** src/dtls13/server.rs:151-166 [State] *)
Inductive SState13 :=
| ST_AwaitClientHello | ST_SendServerHello | ST_SendEncryptedExtensions
| ST_SendCertificateRequest | ST_SendCertificate | ST_SendCertificateVerify | ST_SendFinished
| ST_AwaitCertificate | ST_AwaitCertificateVerify | ST_AwaitFinished | ST_AwaitApplicationData
| ST_HalfClosedLocal | ST_Closed.

Definition sstate13_eq_dec (a b : SState13) : {a = b} + {a <> b}.
Proof. decide equality. Defined.
Definition sstate13_eqb (a b : SState13) : bool :=
  if sstate13_eq_dec a b then true else false.

(** src/dtls13/server.rs:79-149 [Server].  Not modelled: [defragment_buffer], which
    is scratch space, and [active_key_exchange], which is always [None].
    [xs_ext] is [extension_data], through which [await_client_hello] hands the key
    share to [send_server_hello]. *)
Record Server13 := mkServer13 {
  xs_state : SState13; (* state *)
  xs_eng : Eng13; (* engine *)
  xs_random : option bytes; (* random *)
  xs_csid : option bytes; (* client_session_id *)
  xs_ext : bytes; (* extension_data *)
  xs_srtp : option N; (* negotiated_srtp_profile *)
  xs_certs : list bytes; (* client_certificates *)
  xs_now : N; (* last_now *)
  xs_events : list LocalEvent12; (* local_events *)
  xs_queued : list bytes; (* queued_data *)
  xs_shared : option bytes; (* shared_secret *)
  xs_hs : option bytes; (* handshake_secret *)
  xs_chs : option bytes; (* client_hs_traffic_secret *)
  xs_shs : option bytes; (* server_hs_traffic_secret *)
  xs_auth : bool; (* client_auth_requested *)
  xs_retry : bool; (* hello_retry *)
  xs_secret : bytes; (* cookie_secret *)
  xs_pend : bool; (* pending_key_update_response *)
  xs_auto : bool; (* auto_mode *)
  xs_hellos : list bytes }. (* retained_hello *)

(** Field updates of [Server13] ([self.f = v] in the Rust code). *)
Definition set_xs_state (v : SState13) (s : Server13) : Server13 :=
  mkServer13 v (xs_eng s) (xs_random s) (xs_csid s) (xs_ext s) (xs_srtp s) (xs_certs s) (xs_now s) (xs_events s) (xs_queued s) (xs_shared s) (xs_hs s) (xs_chs s) (xs_shs s) (xs_auth s) (xs_retry s) (xs_secret s) (xs_pend s) (xs_auto s) (xs_hellos s).
Definition set_xs_eng (v : Eng13) (s : Server13) : Server13 :=
  mkServer13 (xs_state s) v (xs_random s) (xs_csid s) (xs_ext s) (xs_srtp s) (xs_certs s) (xs_now s) (xs_events s) (xs_queued s) (xs_shared s) (xs_hs s) (xs_chs s) (xs_shs s) (xs_auth s) (xs_retry s) (xs_secret s) (xs_pend s) (xs_auto s) (xs_hellos s).
Definition set_xs_random (v : option bytes) (s : Server13) : Server13 :=
  mkServer13 (xs_state s) (xs_eng s) v (xs_csid s) (xs_ext s) (xs_srtp s) (xs_certs s) (xs_now s) (xs_events s) (xs_queued s) (xs_shared s) (xs_hs s) (xs_chs s) (xs_shs s) (xs_auth s) (xs_retry s) (xs_secret s) (xs_pend s) (xs_auto s) (xs_hellos s).
Definition set_xs_csid (v : option bytes) (s : Server13) : Server13 :=
  mkServer13 (xs_state s) (xs_eng s) (xs_random s) v (xs_ext s) (xs_srtp s) (xs_certs s) (xs_now s) (xs_events s) (xs_queued s) (xs_shared s) (xs_hs s) (xs_chs s) (xs_shs s) (xs_auth s) (xs_retry s) (xs_secret s) (xs_pend s) (xs_auto s) (xs_hellos s).
Definition set_xs_ext (v : bytes) (s : Server13) : Server13 :=
  mkServer13 (xs_state s) (xs_eng s) (xs_random s) (xs_csid s) v (xs_srtp s) (xs_certs s) (xs_now s) (xs_events s) (xs_queued s) (xs_shared s) (xs_hs s) (xs_chs s) (xs_shs s) (xs_auth s) (xs_retry s) (xs_secret s) (xs_pend s) (xs_auto s) (xs_hellos s).
Definition set_xs_srtp (v : option N) (s : Server13) : Server13 :=
  mkServer13 (xs_state s) (xs_eng s) (xs_random s) (xs_csid s) (xs_ext s) v (xs_certs s) (xs_now s) (xs_events s) (xs_queued s) (xs_shared s) (xs_hs s) (xs_chs s) (xs_shs s) (xs_auth s) (xs_retry s) (xs_secret s) (xs_pend s) (xs_auto s) (xs_hellos s).
Definition set_xs_certs (v : list bytes) (s : Server13) : Server13 :=
  mkServer13 (xs_state s) (xs_eng s) (xs_random s) (xs_csid s) (xs_ext s) (xs_srtp s) v (xs_now s) (xs_events s) (xs_queued s) (xs_shared s) (xs_hs s) (xs_chs s) (xs_shs s) (xs_auth s) (xs_retry s) (xs_secret s) (xs_pend s) (xs_auto s) (xs_hellos s).
Definition set_xs_now (v : N) (s : Server13) : Server13 :=
  mkServer13 (xs_state s) (xs_eng s) (xs_random s) (xs_csid s) (xs_ext s) (xs_srtp s) (xs_certs s) v (xs_events s) (xs_queued s) (xs_shared s) (xs_hs s) (xs_chs s) (xs_shs s) (xs_auth s) (xs_retry s) (xs_secret s) (xs_pend s) (xs_auto s) (xs_hellos s).
Definition set_xs_events (v : list LocalEvent12) (s : Server13) : Server13 :=
  mkServer13 (xs_state s) (xs_eng s) (xs_random s) (xs_csid s) (xs_ext s) (xs_srtp s) (xs_certs s) (xs_now s) v (xs_queued s) (xs_shared s) (xs_hs s) (xs_chs s) (xs_shs s) (xs_auth s) (xs_retry s) (xs_secret s) (xs_pend s) (xs_auto s) (xs_hellos s).
Definition set_xs_queued (v : list bytes) (s : Server13) : Server13 :=
  mkServer13 (xs_state s) (xs_eng s) (xs_random s) (xs_csid s) (xs_ext s) (xs_srtp s) (xs_certs s) (xs_now s) (xs_events s) v (xs_shared s) (xs_hs s) (xs_chs s) (xs_shs s) (xs_auth s) (xs_retry s) (xs_secret s) (xs_pend s) (xs_auto s) (xs_hellos s).
Definition set_xs_shared (v : option bytes) (s : Server13) : Server13 :=
  mkServer13 (xs_state s) (xs_eng s) (xs_random s) (xs_csid s) (xs_ext s) (xs_srtp s) (xs_certs s) (xs_now s) (xs_events s) (xs_queued s) v (xs_hs s) (xs_chs s) (xs_shs s) (xs_auth s) (xs_retry s) (xs_secret s) (xs_pend s) (xs_auto s) (xs_hellos s).
Definition set_xs_hs (v : option bytes) (s : Server13) : Server13 :=
  mkServer13 (xs_state s) (xs_eng s) (xs_random s) (xs_csid s) (xs_ext s) (xs_srtp s) (xs_certs s) (xs_now s) (xs_events s) (xs_queued s) (xs_shared s) v (xs_chs s) (xs_shs s) (xs_auth s) (xs_retry s) (xs_secret s) (xs_pend s) (xs_auto s) (xs_hellos s).
Definition set_xs_chs (v : option bytes) (s : Server13) : Server13 :=
  mkServer13 (xs_state s) (xs_eng s) (xs_random s) (xs_csid s) (xs_ext s) (xs_srtp s) (xs_certs s) (xs_now s) (xs_events s) (xs_queued s) (xs_shared s) (xs_hs s) v (xs_shs s) (xs_auth s) (xs_retry s) (xs_secret s) (xs_pend s) (xs_auto s) (xs_hellos s).
Definition set_xs_shs (v : option bytes) (s : Server13) : Server13 :=
  mkServer13 (xs_state s) (xs_eng s) (xs_random s) (xs_csid s) (xs_ext s) (xs_srtp s) (xs_certs s) (xs_now s) (xs_events s) (xs_queued s) (xs_shared s) (xs_hs s) (xs_chs s) v (xs_auth s) (xs_retry s) (xs_secret s) (xs_pend s) (xs_auto s) (xs_hellos s).
Definition set_xs_auth (v : bool) (s : Server13) : Server13 :=
  mkServer13 (xs_state s) (xs_eng s) (xs_random s) (xs_csid s) (xs_ext s) (xs_srtp s) (xs_certs s) (xs_now s) (xs_events s) (xs_queued s) (xs_shared s) (xs_hs s) (xs_chs s) (xs_shs s) v (xs_retry s) (xs_secret s) (xs_pend s) (xs_auto s) (xs_hellos s).
Definition set_xs_retry (v : bool) (s : Server13) : Server13 :=
  mkServer13 (xs_state s) (xs_eng s) (xs_random s) (xs_csid s) (xs_ext s) (xs_srtp s) (xs_certs s) (xs_now s) (xs_events s) (xs_queued s) (xs_shared s) (xs_hs s) (xs_chs s) (xs_shs s) (xs_auth s) v (xs_secret s) (xs_pend s) (xs_auto s) (xs_hellos s).
Definition set_xs_secret (v : bytes) (s : Server13) : Server13 :=
  mkServer13 (xs_state s) (xs_eng s) (xs_random s) (xs_csid s) (xs_ext s) (xs_srtp s) (xs_certs s) (xs_now s) (xs_events s) (xs_queued s) (xs_shared s) (xs_hs s) (xs_chs s) (xs_shs s) (xs_auth s) (xs_retry s) v (xs_pend s) (xs_auto s) (xs_hellos s).
Definition set_xs_pend (v : bool) (s : Server13) : Server13 :=
  mkServer13 (xs_state s) (xs_eng s) (xs_random s) (xs_csid s) (xs_ext s) (xs_srtp s) (xs_certs s) (xs_now s) (xs_events s) (xs_queued s) (xs_shared s) (xs_hs s) (xs_chs s) (xs_shs s) (xs_auth s) (xs_retry s) (xs_secret s) v (xs_auto s) (xs_hellos s).
Definition set_xs_auto (v : bool) (s : Server13) : Server13 :=
  mkServer13 (xs_state s) (xs_eng s) (xs_random s) (xs_csid s) (xs_ext s) (xs_srtp s) (xs_certs s) (xs_now s) (xs_events s) (xs_queued s) (xs_shared s) (xs_hs s) (xs_chs s) (xs_shs s) (xs_auth s) (xs_retry s) (xs_secret s) (xs_pend s) v (xs_hellos s).
Definition set_xs_hellos (v : list bytes) (s : Server13) : Server13 :=
  mkServer13 (xs_state s) (xs_eng s) (xs_random s) (xs_csid s) (xs_ext s) (xs_srtp s) (xs_certs s) (xs_now s) (xs_events s) (xs_queued s) (xs_shared s) (xs_hs s) (xs_chs s) (xs_shs s) (xs_auth s) (xs_retry s) (xs_secret s) (xs_pend s) (xs_auto s) v.

Notation YM := (M Server13).
(** [server.engine.op()] *)
Definition yeng {A} (m : M Eng13 A) : YM A := zoom xs_eng set_xs_eng m.

(** src/dtls13/server.rs:76 *)
Definition MAX_RETAINED : N := 64.

Section Server13.
Variable E : Env.

(** src/dtls13/server.rs:186-213 [new_with_engine]; the cookie secret is the next
    draw of the engine's generator.  Unlike in DTLS 1.2 the role stored in the
    engine is not reset. *)
Definition server13_new (e : Eng13) (now : N) (auto : bool) : Server13 :=
  mkServer13 ST_AwaitClientHello (set_g_orc (g_orc e + 1) e) None None [] None [] now [] [] None
    None None None false false (e_rand E (g_orc e) 32) false auto [].

(** src/dtls13/server.rs:215-217 [into_client]; src/dtls13/client.rs:213-215
    [into_server] *)
Definition server13_into_client (s : Server13) : Client13 := client13_new (xs_eng s) (xs_now s).
Definition client13_into_server (c : Client13) : Server13 :=
  server13_new (xc_eng c) (xc_now c) false.

(** ** ClientHello *)

(** src/dtls13/server.rs:439-448: what the extensions of a ClientHello say *)
Record ChExts := mkChExts {
  ce_v13 : bool; ce_shares : option (list (N * bytes)); ce_groups : option (list N);
  ce_srtp : option (list N); ce_cookie : option bytes }.

(** src/dtls13/server.rs:450-505.  [SignatureAlgorithms] is parsed and ignored. *)
Fixpoint ch13_scan (x : ChExts) (es : list (N * bytes)) : res ChExts :=
  match es with
  | [] => Ok x
  | (t, d) :: r =>
    if t =? X_VERSIONS then
      match p_versions_ch d with
      | None => Err ETransient
      | Some vs => ch13_scan (mkChExts (ce_v13 x || memN V_DTLS13 vs) (ce_shares x) (ce_groups x)
                                       (ce_srtp x) (ce_cookie x)) r
      end
    else if t =? X_KEYSHARE then
      match p_shares_ch d with
      | None => Err ETransient
      | Some l => ch13_scan (mkChExts (ce_v13 x) (Some l) (ce_groups x) (ce_srtp x) (ce_cookie x)) r
      end
    else if t =? X_GROUPS then
      match p_groups13 d with
      | None => Err ETransient
      | Some l => ch13_scan (mkChExts (ce_v13 x) (ce_shares x) (Some l) (ce_srtp x) (ce_cookie x)) r
      end
    else if t =? X_SRTP then
      match p_srtp d with
      | None => Err ETransient
      | Some (l, _) => ch13_scan (mkChExts (ce_v13 x) (ce_shares x) (ce_groups x) (Some l)
                                           (ce_cookie x)) r
      end
    else if t =? X_COOKIE then
      match p_cookie_ext d with
      | None => Err ETransient
      | Some c => if 32 <? len c then Err (ESecurity SE_cookie)
                  else ch13_scan (mkChExts (ce_v13 x) (ce_shares x) (ce_groups x) (ce_srtp x)
                                           (Some c)) r
      end
    else ch13_scan x r
  end.
Definition ch13_none : ChExts := mkChExts false None None None None.
Definition list_of {A} (o : option (list A)) : list A := match o with Some l => l | None => [] end.

(** src/dtls13/server.rs:1266-1275 [compute_cookie]; [unwrap] *)
Definition cookie13 (secret random : bytes) : YM bytes :=
  match e_hmac E H_SHA256 secret random with
  | Some c => ret c
  | None => panic 1274
  end.

(** src/dtls13/server.rs:1278-1347 [send_hello_retry_request] *)
Definition hrr_exts (group : option N) (cookie : bytes) : list (N * bytes) :=
  [(X_VERSIONS, s_versions_sh V_DTLS13)] ++
  match group with Some g => [(X_KEYSHARE, s_share_hrr g)] | None => [] end ++
  [(X_COOKIE, s_cookie_ext cookie)].
Definition send_hello_retry (cs : N) (cookie : bytes) (group : option N) : YM unit :=
  yeng (flight_begin13 E) ;;;
  yeng (create_handshake13 E MT_ServerHello
    (ret (s_sh13 (mkSH12 V_DTLS12 HRR_RANDOM [] cs 0 (Some (hrr_exts group cookie)))))).

(** src/dtls13/server.rs:590-613, 648-676: replace the transcript, send
    HelloRetryRequest, wait for the second ClientHello *)
Definition y_retry (cs : N) (cookie : bytes) (group : option N) : YM SState13 :=
  yeng (modify (set_g_suite (Some cs))) ;;;
  let! s := get in
  yeng (replace_transcript E (length (g_transcript (xs_eng s)))) ;;;
  send_hello_retry cs cookie group ;;;
  yeng advance_peer ;;;
  yeng reset_for_hello_retry ;;;
  modify (set_xs_retry true) ;;;
  ret ST_AwaitClientHello.

(** src/dtls13/server.rs:682-769: complete the key exchange with the client's key
    share *)
Definition y_accept_hello (cs : N) (x : ChExts) (group : N) (peer : bytes) : YM SState13 :=
  let! s := get in
  if negb (memN group (cfg_groups E (g_cfg (xs_eng s)))) then fail ECrypto
  else
    let! t := yeng draw13 in
    let! kx := of_opt ECrypto (e_kx_start E group t) in
    modify (set_xs_ext (snd kx)) ;;;
    let! shared := of_opt ECrypto (e_kx_complete E group (fst kx) peer) in
    modify (set_xs_shared (Some shared)) ;;;
    (match find (fun p => memN p srtp_known) (list_of (ce_srtp x)) with
     | Some p => modify (set_xs_srtp (Some p))
     | None => ret tt
     end) ;;;
    yeng (modify (set_g_suite (Some cs))) ;;;
    modify (fun s => set_xs_ext (xs_ext s ++ be 2 group ++ be 4 0 ++ be 4 (len (snd kx))) s) ;;;
    yeng advance_peer ;;;
    ret ST_SendServerHello.

(** src/dtls13/server.rs:508-680: suite, cookie and key share selection.  [tlen] is
    the length of the transcript before the message. *)
Definition y_select (h : ClientHello13) (x : ChExts) (tlen : nat) : YM SState13 :=
  let! s := get in
  let cfg := g_cfg (xs_eng s) in
  let groups := cfg_groups E cfg in
  let! cs := of_opt (ESecurity SE_no_common_suite) (find (suite13_allowed E (xs_eng s)) (h_suites h)) in
  modify (set_xs_csid (Some (h_sid h))) ;;;
  let share := find (fun e => memN (fst e) groups) (list_of (ce_shares x)) in
  let common := find (fun g => memN g (list_of (ce_groups x))) groups in
  let hrr_group := match share with Some _ => None | None => common end in
  let finish :=
    match share with
    | Some (g, peer) => y_accept_hello cs x g peer
    | None =>
      match common with
      | None => fail (ESecurity SE_no_common_group)
      | Some g =>
        if xs_retry s then fail (ESecurity SE_second_hrr)
        else let! cookie := cookie13 (xs_secret s) (h_random h) in
             y_retry cs cookie (Some g)
      end
    end in
  if c_cookie cfg then
    let! expected := cookie13 (xs_secret s) (h_random h) in
    match ce_cookie x with
    | Some c => if beqb c expected then finish else fail (ESecurity SE_cookie)
    | None =>
      if xs_retry s then
        yeng (modify (fun e => set_g_transcript (firstn tlen (g_transcript e)) e)) ;;;
        ret ST_AwaitClientHello
      else y_retry cs expected hrr_group
    end
  else
    match ce_cookie x with
    | Some c =>
      let! expected := cookie13 (xs_secret s) (h_random h) in
      if beqb c expected then finish else fail (ESecurity SE_cookie)
    | None => finish
    end.

(** src/dtls13/server.rs:396-770 *)
Definition y_await_client_hello : YM SState13 :=
  let! s := get in
  let! o := yeng (if xs_auto s then next_client_hello_auto else next_handshake13 MT_ClientHello) in
  match o with
  | None => ret ST_AwaitClientHello
  | Some m =>
    match n_body m with
    | D_ClientHello h =>
      if negb (is_nil (h_cookie h)) then fail (ESecurity SE_cookie)
      else if negb (h_version h =? V_DTLS12) then fail (ESecurity SE_version)
      else if negb (memN 0 (h_comps h)) then fail (ESecurity SE_compression)
      else match ch13_scan ch13_none (h_exts h) with
           | Err e => fail e
           | Panic n => panic n
           | Ok x =>
             if negb (ce_v13 x) then
               fail (if xs_auto s then EFallback else ESecurity SE_version)
             else y_select h x (length (g_transcript (xs_eng s)))
           end
    | _ => panic 415
    end
  end.

(** ** The server's flight *)

(** src/dtls13/server.rs:1349-1403 [handshake_create_server_hello]; [unwrap] and
    slicing panic *)
Definition create_server_hello13 (random : bytes) (group from to : N) (ext : bytes)
  : M Eng13 bytes :=
  let! e := get in
  match g_suite e with
  | None => panic 1359
  | Some cs =>
    if (to <? from) || (len ext <? to) then panic 19
    else ret (s_sh13 (mkSH12 V_DTLS12 random [] cs 0
      (Some [(X_VERSIONS, s_versions_sh V_DTLS13);
             (X_KEYSHARE, s_share_sh (group, firstn (N.to_nat (to - from))
                                                    (skipn (N.to_nat from) ext)))])))
  end.

(** src/dtls13/server.rs:772-845 *)
Definition y_send_server_hello : YM SState13 :=
  let! s := get in
  match xs_random s with
  | None => panic 774
  | Some random =>
    let ext := xs_ext s in
    if len ext <? 10 then panic 779
    else
      let m := (length ext - 10)%nat in
      let meta := skipn m ext in
      let group := unbe (firstn 2 meta) in
      let from := unbe (firstn 4 (skipn 2 meta)) in
      let to := unbe (skipn 6 meta) in
      modify (set_xs_ext (firstn m ext)) ;;;
      yeng (flight_begin13 E) ;;;
      yeng (create_handshake13 E MT_ServerHello
              (create_server_hello13 random group from to (firstn m ext))) ;;;
      let! shared := of_opt EInvalidState (xs_shared s) in
      modify (set_xs_shared None) ;;;
      let! q := yeng (derive_handshake_secrets E shared) in
      modify (set_xs_hs (Some (snd q))) ;;;
      modify (set_xs_shs (Some (snd (fst q)))) ;;;
      modify (set_xs_chs (Some (fst (fst q)))) ;;;
      yeng (install_handshake_keys E (fst (fst q)) (snd (fst q))) ;;;
      ret ST_SendEncryptedExtensions
  end.

(** src/dtls13/server.rs:847-863, 1405-1441 *)
Definition ee13_body (srtp : option N) : bytes :=
  s_ee13 (match srtp with Some p => [(X_SRTP, s_srtp [p] [])] | None => [] end).
Definition y_send_encrypted_extensions : YM SState13 :=
  let! s := get in
  yeng (create_handshake13 E MT_EncryptedExtensions (ret (ee13_body (xs_srtp s)))) ;;;
  ret (if c_req_cert (g_cfg (xs_eng s)) then ST_SendCertificateRequest else ST_SendCertificate).

(** src/dtls13/server.rs:865-877, 1443-1476 *)
Definition cr13_body : bytes := [0] ++ s_vec 2 (s_exts [(X_SIGALGS, s_schemes13 schemes13_supported)]).
Definition y_send_certificate_request : YM SState13 :=
  yeng (create_handshake13 E MT_CertificateRequest (ret cr13_body)) ;;;
  modify (set_xs_auth true) ;;;
  ret ST_SendCertificate.

(** src/dtls13/server.rs:879-889 *)
Definition y_send_certificate : YM SState13 :=
  yeng (create_handshake13 E MT_Certificate (create_certificate13 [])) ;;;
  ret ST_SendCertificateVerify.

(** src/dtls13/server.rs:891-905 *)
Definition y_send_certificate_verify : YM SState13 :=
  yeng (create_handshake13 E MT_CertificateVerify (create_certificate_verify13 E CV_SERVER)) ;;;
  ret ST_SendFinished.

(** src/dtls13/server.rs:907-950 *)
Definition y_send_finished : YM SState13 :=
  let! s := get in
  let! shs := of_opt EInvalidState (xs_shs s) in
  yeng (create_handshake13 E MT_Finished (compute_verify_data E shs)) ;;;
  let! hs := of_opt EInvalidState (xs_hs s) in
  let! q := yeng (derive_application_secrets E hs) in
  yeng (install_application_keys E (fst q) (snd q)) ;;;
  yeng (enable_peer_encryption13 E) ;;;
  ret (if xs_auth s then ST_AwaitCertificate else ST_AwaitFinished).

(** ** The client's flight *)

(** src/dtls13/server.rs:952-1010 *)
Definition y_await_certificate : YM SState13 :=
  let! o := yeng (next_handshake13 MT_Certificate) in
  match o with
  | None => ret ST_AwaitCertificate
  | Some m =>
    match n_body m with
    | D_Certificate _ es =>
      if is_nil es then
        yeng advance_peer ;;;
        yeng stop_timers13 ;;;
        ret ST_AwaitFinished
      else
        modify (fun s => set_xs_certs (xs_certs s ++ map fst es) s) ;;;
        modify (fun s => set_xs_events (xs_events s ++ [LE_PeerCert]) s) ;;;
        yeng stop_timers13 ;;;
        yeng advance_peer ;;;
        ret ST_AwaitCertificateVerify
    | _ => panic 962
    end
  end.

(** src/dtls13/server.rs:1012-1085 *)
Definition y_await_certificate_verify : YM SState13 :=
  let! th := yeng (transcript_hash13 E) in
  let! o := yeng (next_handshake13 MT_CertificateVerify) in
  match o with
  | None => ret ST_AwaitCertificateVerify
  | Some m =>
    match n_body m with
    | D_CertificateVerify scheme sig =>
      let! s := get in
      yeng (check_certificate_verify E CV_CLIENT th (xs_certs s) scheme sig) ;;;
      yeng advance_peer ;;;
      ret ST_AwaitFinished
    | _ => panic 1030
    end
  end.

(** src/dtls13/server.rs:1087-1166 *)
Definition y_await_finished : YM SState13 :=
  let! s := get in
  let! chs := of_opt EInvalidState (xs_chs s) in
  let! expected := yeng (compute_verify_data E chs) in
  let! o := yeng (next_handshake13 MT_Finished) in
  match o with
  | None => ret ST_AwaitFinished
  | Some m =>
    match n_body m with
    | D_Finished vd =>
      if negb (beqb vd expected) then fail (ESecurity SE_finished)
      else
        yeng advance_peer ;;;
        yeng (send_ack_retransmittable E) ;;;
        yeng stop_timers13 ;;;
        modify (fun s => set_xs_events (xs_events s ++ [LE_Connected]) s) ;;;
        let! k := yeng (keying13 E (xs_srtp s)) in
        modify (fun s => set_xs_events (xs_events s ++ k) s) ;;;
        yeng release13_retaining ;;;
        ret ST_AwaitApplicationData
    | _ => panic 1108
    end
  end.

(** src/dtls13/server.rs:1168-1232.  [drain] empties the queue even when sending one
    of the items fails. *)
Definition y_await_application_data : YM SState13 :=
  let! needs := yeng take_needs_key_update in
  let! s := get in
  when (needs && negb (g_inflight (xs_eng s))) (yeng (create_key_update E true)) ;;;
  let! s := get in
  let ep := g_epoch (xs_eng s) in
  modify (set_xs_queued []) ;;;
  iterM (fun d => yeng (create_cipher13 E CT_APP ep false d)) (xs_queued s) ;;;
  (if xs_pend s then
     yeng (create_key_update E false) ;;; modify (set_xs_pend false)
   else ret tt) ;;;
  let! s := get in
  if negb (has_complete13 (xs_eng s) MT_KeyUpdate) then ret ST_AwaitApplicationData
  else
    let! o := yeng (next_handshake13_no_transcript MT_KeyUpdate) in
    match o with
    | None => ret ST_AwaitApplicationData
    | Some m =>
      match n_body m with
      | D_KeyUpdate requested =>
        yeng (update_recv_keys E) ;;;
        yeng (send_ack13 E) ;;;
        let! s := get in
        when (requested && negb (g_inflight (xs_eng s))) (modify (set_xs_pend true)) ;;;
        yeng advance_peer ;;;
        ret ST_AwaitApplicationData
      | _ => panic 1211
      end
    end.

(** src/dtls13/server.rs:1234-1256 *)
Definition y_half_closed_local : YM SState13 :=
  let! s := get in
  (if has_complete13 (xs_eng s) MT_KeyUpdate then
     let! o := yeng (next_handshake13_no_transcript MT_KeyUpdate) in
     match o with
     | None => ret tt
     | Some m =>
       match n_body m with
       | D_KeyUpdate _ => yeng (update_recv_keys E) ;;; yeng advance_peer
       | _ => panic 1244
       end
     end
   else ret tt) ;;;
  let! s := get in
  ret (if is_some (g_cn (xs_eng s)) then ST_Closed else ST_HalfClosedLocal).

(** src/dtls13/server.rs:378-394 [State::make_progress] *)
Definition y_step (st : SState13) : YM SState13 :=
  match st with
  | ST_AwaitClientHello => y_await_client_hello
  | ST_SendServerHello => y_send_server_hello
  | ST_SendEncryptedExtensions => y_send_encrypted_extensions
  | ST_SendCertificateRequest => y_send_certificate_request
  | ST_SendCertificate => y_send_certificate
  | ST_SendCertificateVerify => y_send_certificate_verify
  | ST_SendFinished => y_send_finished
  | ST_AwaitCertificate => y_await_certificate
  | ST_AwaitCertificateVerify => y_await_certificate_verify
  | ST_AwaitFinished => y_await_finished
  | ST_AwaitApplicationData => y_await_application_data
  | ST_HalfClosedLocal => y_half_closed_local
  | ST_Closed => ret ST_Closed
  end.

(** src/dtls13/server.rs:343-356 [make_progress].  The loop only goes forward; the
    fuel is never exhausted (proved in Steps13). *)
Fixpoint y_progress (fuel : nat) : YM unit :=
  match fuel with
  | O => panic 9003
  | S fuel' =>
    let! s := get in
    let! st := y_step (xs_state s) in
    if sstate13_eqb (xs_state s) st then ret tt
    else modify (set_xs_state st) ;;; y_progress fuel'
  end.
Definition y_make_progress : YM unit := y_progress 40.

(** ** API *)

(** src/dtls13/server.rs:249-270: a transient error skips the end of the function *)
Definition y_process (p : bytes) : YM unit :=
  yeng (eng13_parse_packet E p) ;;;
  y_make_progress ;;;
  let! s := get in
  when (xs_auto s && negb (sstate13_eqb (xs_state s) ST_AwaitClientHello))
    (modify (fun s => set_xs_auto false (set_xs_hellos [] s))).
(** src/dtls13/server.rs:239-271 [handle_packet] *)
Definition server13_handle_packet (p : bytes) : YM unit :=
  let! s := get in
  if xs_auto s && sstate13_eqb (xs_state s) ST_AwaitClientHello then
    if MAX_RETAINED <=? len (xs_hellos s) then fail ETooManyFragments
    else modify (fun s => set_xs_hellos (xs_hellos s ++ [p]) s) ;;; public (y_process p)
  else public (y_process p).

(** src/dtls13/server.rs:273-278 [poll_output] *)
Definition server13_poll_output (cap : N) : YM Output :=
  let! s := get in
  match xs_events s with
  | ev :: r => modify (set_xs_events r) ;;; event12_output ev cap (xs_certs s)
  | [] => yeng (eng13_poll_output cap (xs_now s))
  end.

(** src/dtls13/server.rs:281-291 [handle_timeout] *)
Definition server13_handle_timeout (now : N) : YM unit :=
  modify (set_xs_now now) ;;;
  let! s := get in
  (match xs_random s with
   | Some _ => ret tt
   | None => let! r := yeng (rand_bytes13 E 32) in modify (set_xs_random (Some r))
   end) ;;;
  yeng (eng13_handle_timeout E now) ;;;
  public y_make_progress.

(** src/dtls13/server.rs:299-320 [send_application_data] *)
Definition server13_send (d : bytes) : YM unit :=
  let! s := get in
  match xs_state s with
  | ST_Closed | ST_HalfClosedLocal => fail EClosed
  | ST_AwaitApplicationData => yeng (create_cipher13 E CT_APP (g_epoch (xs_eng s)) false d)
  | _ => modify (fun s => set_xs_queued (xs_queued s ++ [d]) s)
  end.

(** src/dtls13/server.rs:323-341 [close] *)
Definition server13_close : YM unit :=
  let! s := get in
  match xs_state s with
  | ST_Closed | ST_HalfClosedLocal => ret tt
  | ST_AwaitApplicationData =>
    yeng (create_cipher13 E CT_ALERT (g_epoch (xs_eng s)) false [1; 0]) ;;;
    yeng cancel_flights ;;;
    modify (set_xs_state ST_HalfClosedLocal)
  | _ => yeng eng13_abort ;;; modify (set_xs_state ST_Closed)
  end.

End Server13.
