(** src/auto.rs and the [Dtls] type of src/lib.rs: version auto-sensing and the
    dispatch of the calls. *)
From Verif Require Import Prelude Types Codec Codec12 Codec13 Record12 Record13 Env Config Context12 Monad Timer Engine12 Client12 Server12
  Engine13 Client13 Server13 History12 History13.

(** ** Version detection *)

(** src/auto.rs:345-349 [DetectedVersion] *)
Inductive Detected := DV12 | DV13 | DVUnknown.

(** [slice.get(a..a + n)] *)
Definition slice (a n : nat) (l : bytes) : option bytes :=
  if Nat.leb (a + n) (length l) then Some (firstn n (skipn a l)) else None.
(** [u16::from_be_bytes([l[a], l[a + 1]])] *)
Definition u16_at (a : nat) (l : bytes) : N := unbe (firstn 2 (skipn a l)).

(** src/auto.rs:427-446: the walk through the extensions.  The index [body[pos + 1]]
    of the selected version is only checked against the announced length of the
    extension, not against the end of the body.  Every round advances by at least
    four bytes, so [fuel := S (length body)] is never exhausted (proved). *)
Fixpoint find_version (fuel : nat) (body : bytes) (pos ext_end : nat) : res Detected :=
  match fuel with
  | O => Panic 9004
  | S fuel' =>
    if Nat.leb (pos + 4) ext_end then
      let t := u16_at pos body in
      let n := N.to_nat (u16_at (pos + 2) body) in
      let pos := (pos + 4)%nat in
      if t =? X_VERSIONS then
        if Nat.leb 2 n then
          if Nat.ltb (length body) (pos + 2) then Panic 436
          else if u16_at pos body =? V_DTLS13 then Ok DV13 else Ok DV12
        else Ok DV12
      else find_version fuel' body (pos + n) ext_end
    else Ok DV12
  end.

(** src/auto.rs:398-449: the body of a ServerHello *)
Definition hello_version (body : bytes) : res Detected :=
  if Nat.ltb (length body) 35 then Ok DV12
  else
    let sid := N.to_nat (nth 34 body 0) in
    let pos := (34 + (1 + sid) + 2 + 1)%nat in
    if Nat.ltb (length body) (pos + 2) then Ok DV12
    else
      let ext_end := (pos + 2 + N.to_nat (u16_at pos body))%nat in
      if Nat.ltb (length body) ext_end then Ok DV12
      else find_version (S (length body)) body (pos + 2) ext_end.

(** src/auto.rs:357-450 [server_hello_version] *)
Definition server_hello_version (packet : bytes) : res Detected :=
  if Nat.ltb (length packet) 13 then Ok DVUnknown
  else if negb (hd 0 packet =? CT_HS) then Ok DVUnknown
  else
    match slice 13 (N.to_nat (u16_at 11 packet)) packet with
    | None => Ok DVUnknown
    | Some r =>
      if Nat.ltb (length r) 12 then Ok DVUnknown
      else
        let t := hd 0 r in
        if t =? MT_HelloVerifyRequest then Ok DV12
        else if negb (t =? MT_ServerHello) then Ok DVUnknown
        else
          match slice 12 (N.to_nat (unbe (firstn 3 (skipn 9 r)))) r with
          | None => Ok DVUnknown
          | Some body => hello_version body
          end
    end.

(** ** The hybrid ClientHello *)

(** src/auto.rs:56-71 [HybridClientHello] *)
Record Hybrid := mkHybrid {
  hy_random : bytes; hy_kx : N * bytes * bytes; hy_transcript : bytes; hy_fragment : bytes }.

(** src/auto.rs:130-187: the extensions before padding *)
Definition hybrid_exts (E : Env) (cfg : Config) (group : N) (pub : bytes) : list (N * bytes) :=
  [(X_VERSIONS, s_versions_ch [V_DTLS13; V_DTLS12]);
   (X_GROUPS, s_groups13 (cfg_groups E cfg));
   (X_KEYSHARE, s_shares_ch [(group, pub)]);
   (X_SIGALGS, s_schemes13 schemes13_supported);
   (X_SRTP, s_srtp [SRTP_GCM256; SRTP_GCM128; SRTP_SHA1_80] []);
   (X_POINTS, [1; 0]);
   (X_EMS, []);
   (X_RENEG, [0])].
(** src/auto.rs:104-116 *)
Definition hybrid_suites (E : Env) (cfg : Config) : list N :=
  cfg_suites13 E cfg ++ filter (fun s => negb (suite12_is_psk s)) (cfg_suites12 E cfg).
(** src/auto.rs:90-219: the body.  The code writes it field by field in the layout
    of [s_ch13]. *)
Definition hybrid_body (E : Env) (cfg : Config) (random : bytes) (group : N) (pub : bytes) : bytes :=
  let suites := hybrid_suites E cfg in
  let es := hybrid_exts E cfg group pub in
  s_ch13 (mkCH13 V_DTLS12 random [] [] suites [0] (es ++ ch13_padding (c_mtu cfg) (len suites) es)).
(** src/auto.rs:78-240 [HybridClientHello::new].  [push] and [collect] panic beyond
    the capacity.  Simplified: the generator is seeded separately in the code; here
    its draws are those numbered [t] and [t + 1]. *)
Definition hybrid_new (E : Env) (cfg : Config) (t : N) : res Hybrid :=
  let random := e_rand E t 32 in
  match cfg_groups E cfg with
  | [] => Err ECrypto
  | g :: _ =>
    match e_kx_start E g (t + 1) with
    | None => Err ECrypto
    | Some (secret, pub) =>
      if 16 <? len (hybrid_suites E cfg) then Panic 109
      else if 4 <? len (cfg_groups E cfg) then Panic 141
      else
        let body := hybrid_body E cfg random g pub in
        Ok (mkHybrid random (g, secret, pub)
              (be 1 MT_ClientHello ++ be 3 (len body) ++ body)
              (s_hs_header MT_ClientHello (len body) 0 0 (len body) ++ body))
    end
  end.
(** src/auto.rs:243-253 [wire_packet] *)
Definition hybrid_wire (h : Hybrid) : bytes :=
  [CT_HS] ++ be 2 V_DTLS12 ++ be 2 0 ++ be 6 0 ++ be 2 (len (hy_fragment h)) ++ hy_fragment h.

(** ** The pending client *)

(** src/auto.rs:258-272 [ClientPending]; the private key bytes are the [KeyInfo] they
    parse to. *)
Record Pending := mkPending {
  pe_hybrid : Hybrid; pe_cfg : Config; pe_cert : bytes; pe_key : KeyInfo;
  pe_wire : bytes; pe_send : bool; pe_now : N; pe_at : option N; pe_count : N }.

(** src/auto.rs:275-292 [ClientPending::new] *)
Definition pending_new (E : Env) (cfg : Config) (cert : bytes) (key : KeyInfo) (now t : N) : res Pending :=
  match hybrid_new E cfg t with
  | Ok h => Ok (mkPending h cfg cert key (hybrid_wire h) true now None 0)
  | Err e => Err e
  | Panic n => Panic n
  end.
(** src/auto.rs:294-315 [handle_timeout] *)
Definition pending_timeout (now : N) (p : Pending) : res unit * Pending :=
  let p := mkPending (pe_hybrid p) (pe_cfg p) (pe_cert p) (pe_key p) (pe_wire p) (pe_send p) now (pe_at p) (pe_count p) in
  match pe_at p with
  | None =>
    (Ok tt, mkPending (pe_hybrid p) (pe_cfg p) (pe_cert p) (pe_key p) (pe_wire p) (pe_send p) now (Some (now + sec)) (pe_count p))
  | Some d =>
    if d <=? now then
      if c_retries (pe_cfg p) <=? pe_count p then (Err (ETimeout TO_Hybrid), p)
      else
        let n := pe_count p + 1 in
        (Ok tt, mkPending (pe_hybrid p) (pe_cfg p) (pe_cert p) (pe_key p) (pe_wire p) true now
                  (Some (now + N.shiftl 1 (N.min n 5) * sec)) n)
    else (Ok tt, p)
  end.
(** src/auto.rs:317-332 [poll_output] *)
Definition pending_poll (cap : N) (p : Pending) : Output * Pending :=
  if pe_send p then
    if cap <? len (pe_wire p) then (OTooSmall (len (pe_wire p)), p)
    else (OPacket (pe_wire p),
          mkPending (pe_hybrid p) (pe_cfg p) (pe_cert p) (pe_key p) (pe_wire p) false (pe_now p) (pe_at p) (pe_count p))
  else (OTimeout (match pe_at p with Some d => d | None => pe_now p + sec end), p).

(** ** The [Dtls] type *)

(** src/lib.rs:301-311 [Dtls] and [Inner]; [INone] is [inner: None]. *)
Inductive Dtls := I12 (s : End12) | I13 (s : End13) | IPend (p : Pending) | INone.

Section Dtls.
Variable E : Env.

(** src/lib.rs:312-321 [is_dtls12_psk_only] *)
Definition psk_only (cfg : Config) : bool :=
  is_nil (cfg_suites13 E cfg) && negb (is_nil (cfg_suites12 E cfg)) && forallb suite12_is_psk (cfg_suites12 E cfg).

(** src/lib.rs:330-344 [client_hello_handshake] *)
Definition client_hello_handshake (packet : bytes) : option bytes :=
  if Nat.ltb (length packet) 13 || negb (hd 0 packet =? CT_HS) then None
  else
    match slice 13 (N.to_nat (u16_at 11 packet)) packet with
    | None => None
    | Some r => if Nat.ltb (length r) 12 || negb (hd 0 r =? MT_ClientHello) then None else Some r
    end.
(** src/lib.rs:448-455: the first offered suite the configuration allows *)
Fixpoint first_allowed_psk (allowed : list N) (d : bytes) : bool :=
  match d with
  | a :: b :: d => let s := unbe [a; b] in
                   if memN s allowed then suite12_is_psk s else first_allowed_psk allowed d
  | _ => false
  end.
(** src/lib.rs:415-457 [client_hello_wants_psk] *)
Definition client_hello_wants_psk (packet : bytes) (cfg : Config) : bool :=
  match client_hello_handshake packet with
  | None => false
  | Some r =>
    if negb (unbe (firstn 3 (skipn 6 r)) =? 0) then false
    else
      match slice 12 (N.to_nat (unbe (firstn 3 (skipn 9 r)))) r with
      | None => false
      | Some body =>
        match nth_error body 34 with
        | None => false
        | Some sid =>
          let pos := (34 + (1 + N.to_nat sid))%nat in
          match nth_error body pos with
          | None => false
          | Some cookie =>
            let pos := (pos + (1 + N.to_nat cookie))%nat in
            if Nat.ltb (length body) (pos + 2) then false
            else
              let n := u16_at pos body in
              let pos := (pos + 2)%nat in
              if Nat.ltb (length body) (pos + N.to_nat n) || negb (n mod 2 =? 0) then false
              else first_allowed_psk (cfg_suites12 E cfg) (firstn (N.to_nat n) (skipn pos body))
          end
        end
      end
  end.

(** src/lib.rs:475-534: the constructors *)
Definition dtls_new_12 (cfg : Config) (cert : bytes) (key : KeyInfo) (now : N) : res Dtls :=
  if is_nil cert then Panic 130
  else Ok (I12 (Sv (server12_new E (eng12_new E cfg (AuthCert cert key)) now))).
Definition dtls_new_12_psk (cfg : Config) (now : N) : res Dtls :=
  if has_psk cfg then Ok (I12 (Sv (server12_new E (eng12_new E cfg AuthPsk) now))) else Panic 491.
Definition dtls_new_13 (cfg : Config) (cert : bytes) (key : KeyInfo) (now : N) : Dtls :=
  I13 (XS (server13_new E (eng13_new E cfg cert key false) now false)).
Definition dtls_new_auto (cfg : Config) (cert : bytes) (key : KeyInfo) (now : N) : Dtls :=
  if psk_only cfg then I12 (Sv (server12_new E (eng12_new E cfg AuthPsk) now))
  else I13 (XS (server13_new E (eng13_new E cfg cert key false) now true)).

(** src/lib.rs:540-554 [protocol_version] *)
Definition protocol_version (d : Dtls) : option N :=
  match d with
  | I12 _ => Some V_DTLS12
  | I13 (XC _) => Some V_DTLS13
  | I13 (XS s) => if xs_auto s then None else Some V_DTLS13
  | IPend _ | INone => None
  end.
(** src/lib.rs:557-562 [is_active] *)
Definition is_active (d : Dtls) : bool :=
  match d with I12 (Cl _) | I13 (XC _) | IPend _ => true | _ => false end.
(** src/lib.rs:814-822 [is_pending] *)
Definition is_pending (d : Dtls) : bool :=
  match d with I13 (XS s) => xs_auto s | IPend _ => true | _ => false end.

(** src/lib.rs:572-611 [set_active] *)
Definition set_active (active : bool) (d : Dtls) : res unit * Dtls :=
  if is_active d then
    if active then (Ok tt, d)
    else match d with
         | I12 (Cl c) => (Ok tt, I12 (Sv (client12_into_server E c)))
         | I13 (XC c) => (Ok tt, I13 (XS (client13_into_server E c)))
         | _ => (Panic 584, INone)
         end
  else if active then
    match d with
    | I12 (Sv s) => (Ok tt, I12 (Cl (server12_into_client s)))
    | I13 (XS s) =>
      if xs_auto s then
        let e := xs_eng s in
        match pending_new E (g_cfg e) (g_cert e) (g_key e) (xs_now s) (g_orc e) with
        | Ok p => (Ok tt, IPend p)
        | Err _ => (Panic 599, INone)
        | Panic n => (Panic n, INone)
        end
      else (Ok tt, I13 (XC (server13_into_client s)))
    | _ => (Panic 590, INone)
    end
  else (Ok tt, d).

(** src/lib.rs:653-700 [handle_pending_auto_client] *)
Definition pending_client (packet : bytes) (cp : Pending) : res unit * Dtls :=
  let h := pe_hybrid cp in
  match server_hello_version packet with
  | Panic n => (Panic n, IPend cp)
  | Err e => (Err e, IPend cp)
  | Ok DVUnknown => (Err EUnexpected, IPend cp)
  | Ok DV12 =>
    if is_nil (pe_cert cp) then (Panic 131, INone)
    else
      match client12_from_hybrid E (hy_random h) (hy_fragment h) (pe_cfg cp) (AuthCert (pe_cert cp) (pe_key cp)) (pe_now cp) with
      | (Ok _, c) => let '(r, c') := client12_handle_packet E packet c in (r, I12 (Cl c'))
      | (Err e, _) => (Err e, INone)
      | (Panic n, _) => (Panic n, INone)
      end
  | Ok DV13 =>
    match client13_from_hybrid E (hy_random h) (hy_transcript h) (hy_kx h) (pe_cfg cp) (pe_cert cp) (pe_key cp) (pe_now cp) with
    | (Ok _, c) => let '(r, c') := client13_handle_packet E packet c in (r, I13 (XC c'))
    | (Err e, _) => (Err e, INone)
    | (Panic n, _) => (Panic n, INone)
    end
  end.

(** src/lib.rs:731-734: the retained datagrams are given to the new server, up to the
    first error *)
Fixpoint replay_packets (ps : list bytes) (s : Server12) : res unit * Server12 :=
  match ps with
  | [] => (Ok tt, s)
  | p :: ps =>
    match server12_handle_packet E p s with
    | (Ok _, s') => replay_packets ps s'
    | (r, s') => (r, s')
    end
  end.
(** src/lib.rs:704-735 [handle_pending_auto_server] *)
Definition fallback_auth (s : Server13) : AuthMode :=
  let e := xs_eng s in
  if has_psk (g_cfg e) && existsb (fun p => client_hello_wants_psk p (g_cfg e)) (xs_hellos s)
  then AuthPsk else AuthCert (g_cert e) (g_key e).
Definition pending_server (s : Server13) : res unit * Dtls :=
  let e := xs_eng s in
  match fallback_auth s with
  | AuthCert [] _ => (Panic 130, INone)
  | auth =>
    match server12_handle_timeout E (xs_now s) (server12_new E (eng12_new E (g_cfg e) auth) (xs_now s)) with
    | (Ok _, s12) => let '(r, s12') := replay_packets (xs_hellos s) s12 in (r, I12 (Sv s12'))
    | (Err x, _) => (Err x, INone)
    | (Panic n, _) => (Panic n, INone)
    end
  end.

(** src/lib.rs:614-651 [handle_packet] *)
Definition dtls_handle_packet (p : bytes) (d : Dtls) : res unit * Dtls :=
  match d with
  | INone => (Panic 617, INone)
  | IPend cp => pending_client p cp
  | I12 (Cl c) => let '(r, c') := client12_handle_packet E p c in (r, I12 (Cl c'))
  | I12 (Sv s) => let '(r, s') := server12_handle_packet E p s in (r, I12 (Sv s'))
  | I13 (XC c) => let '(r, c') := client13_handle_packet E p c in (r, I13 (XC c'))
  | I13 (XS s) =>
    let '(r, s') := server13_handle_packet E p s in
    match r with
    | Err EFallback => if xs_auto s then pending_server s' else (r, I13 (XS s'))
    | _ => (r, I13 (XS s'))
    end
  end.

Definition reply_unit (r : res unit) : Reply :=
  match r with Ok _ => Ok None | Err e => Err e | Panic n => Panic n end.

(** src/lib.rs:612-811: all calls *)
Definition dtls_call (c : Call) (d : Dtls) : Reply * Dtls :=
  match c with
  | Packet p => let '(r, d') := dtls_handle_packet p d in (reply_unit r, d')
  | Poll cap =>
    match d with
    | INone => (Panic 739, INone)
    | IPend cp => let '(o, cp') := pending_poll cap cp in (Ok (Some o), IPend cp')
    | I12 s => let '(r, s') := end12_call E (Poll cap) s in (r, I12 s')
    | I13 s => let '(r, s') := end13_call E (Poll cap) s in (r, I13 s')
    end
  | Tick now =>
    match d with
    | INone => (Panic 750, INone)
    | IPend cp => let '(r, cp') := pending_timeout now cp in (reply_unit r, IPend cp')
    | I12 s => let '(r, s') := end12_call E (Tick now) s in (r, I12 s')
    | I13 s => let '(r, s') := end13_call E (Tick now) s in (r, I13 s')
    end
  | Send x =>
    match d with
    | INone => (Panic 766, INone)
    | _ =>
      if is_pending d then (Err EHandshakePending, d)
      else match d with
           | I12 s => let '(r, s') := end12_call E (Send x) s in (r, I12 s')
           | I13 s => let '(r, s') := end13_call E (Send x) s in (r, I13 s')
           | _ => (Err EHandshakePending, d)
           end
    end
  | Close =>
    match d with
    | INone => (Panic 798, INone)
    | _ =>
      if is_pending d then (Err EHandshakePending, d)
      else match d with
           | I12 s => let '(r, s') := end12_call E Close s in (r, I12 s')
           | I13 s => let '(r, s') := end13_call E Close s in (r, I13 s')
           | _ => (Err EHandshakePending, d)
           end
    end
  end.
End Dtls.
