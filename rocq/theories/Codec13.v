(** DTLS 1.3 handshake message codecs (src/dtls13/message/*.rs).  Byte ranges
    into a shared buffer are replaced by the bytes they denote; as in [Codec] all
    parse failures are one value. *)
From Verif Require Import Prelude Types Codec Codec12.

(** ** Extension types, src/dtls13/message/extension.rs:50-90; the ones not already
    in [Codec12]. *)
Definition X_PADDING  : N := 21.
Definition X_VERSIONS : N := 43.
Definition X_COOKIE   : N := 44.
Definition X_KEYSHARE : N := 51.
(** src/dtls13/message/extension.rs:122-131 [supported] *)
Definition ext13_supported (t : N) : bool :=
  memN t [X_VERSIONS; X_GROUPS; X_SIGALGS; X_KEYSHARE; X_SRTP; X_COOKIE].

(** ** Message types, src/dtls13/message/handshake.rs:322-330 *)
Definition MT_EncryptedExtensions : N := 8.
Definition MT_KeyUpdate : N := 24.
(** src/dtls13/message/handshake.rs:340-346 [is_unknown],
    [rejects_trailing_body_bytes] *)
Definition mt13_known (t : N) : bool := memN t [1; 2; 8; 11; 13; 15; 20; 24].

(** Extensions kept in an [ArrayVec] of capacity [cap]. *)
Definition p_exts_cap (cap : nat) (l : bytes) : option (list (N * bytes)) :=
  'es <-? p_exts ext13_supported l ;;
  if Nat.leb (length es) cap then Some es else None.

(** ** ClientHello, src/dtls13/message/client_hello.rs:13-21 *)
Record ClientHello13 := mkCH13 {
  h_version : N; h_random : bytes; h_sid : bytes; h_cookie : bytes;
  h_suites : list N; h_comps : list N; h_exts : list (N * bytes) }.

(** src/dtls13/message/client_hello.rs:102-150 [parse_extensions] *)
Definition p_ch13_exts (l : bytes) : option (list (N * bytes) * bytes) :=
  match l with
  | [] => Some ([], l)
  | _ :: _ =>
    '(d, r) <-? p_vec 2 l ;;
    match r with
    | _ :: _ => None
    | [] => 'es <-? p_exts_cap 8 d ;; Some (es, r)
    end
  end.

(** src/dtls13/message/client_hello.rs:52-100 [parse_with_options] *)
Definition p_ch13 (unknown_ok : bool) (l : bytes) : option (ClientHello13 * bytes) :=
  '(v, l) <-? p_u16 l ;;
  '(rnd, l) <-? take 32 l ;;
  '(sid, l) <-? p_sid l ;;
  '(ck, l) <-? p_cookie l ;;
  '(n, l) <-? p_u16 l ;;
  if (n =? 0) || negb (n mod 2 =? 0) then None else
  '(sd, l) <-? take (N.to_nat n) l ;;
  'ss <-? (if unknown_ok then p_list else p_list1) 2%nat (fun s => memN s suites13_supported) 3%nat sd ;;
  '(cd, l) <-? p_vec 1 l ;;
  'cs <-? p_list1 1 (fun c => c =? 0) 1 cd ;;
  '(es, l) <-? p_ch13_exts l ;;
  Some (mkCH13 v rnd sid ck ss cs es, l).

(** src/dtls13/message/client_hello.rs:152-184 [serialize] *)
Definition s_ch13 (c : ClientHello13) : bytes :=
  be 2 (h_version c) ++ h_random c ++ s_vec 1 (h_sid c) ++ s_vec 1 (h_cookie c) ++
  be 2 (2 * len (h_suites c)) ++ s_items 2 (h_suites c) ++
  be 1 (len (h_comps c)) ++ s_items 1 (h_comps c) ++
  match h_exts c with
  | [] => []
  | es => s_vec 2 (s_exts es)
  end.

(** ** ServerHello, src/dtls13/message/server_hello.rs:16-23.  Same fields as in
    DTLS 1.2; the record type of [Codec12] is used. *)
Notation ServerHello13 := ServerHello12.
Definition HRR_RANDOM : bytes :=
  [207; 33; 173; 116; 229; 154; 97; 17; 190; 29; 140; 2; 30; 101; 184; 145;
   194; 162; 17; 22; 122; 187; 140; 94; 7; 158; 9; 226; 200; 168; 51; 156].
(** src/dtls13/message/server_hello.rs:45-47 [is_hello_retry_request] *)
Definition is_hrr (h : ServerHello13) : bool := beqb (sh_random h) HRR_RANDOM.

(** src/dtls13/message/server_hello.rs:49-117 [parse] *)
Definition p_sh13 (l : bytes) : option (ServerHello13 * bytes) :=
  '(v, l) <-? p_u16 l ;;
  '(rnd, l) <-? take 32 l ;;
  '(sid, l) <-? p_sid l ;;
  '(s, l) <-? p_u16 l ;;
  '(c, l) <-? p_u8 l ;;
  match l with
  | [] => Some (mkSH12 v rnd sid s c None, l)
  | _ :: _ =>
    '(n, r) <-? p_u16 l ;;
    if n =? 0 then Some (mkSH12 v rnd sid s c None, r)
    else
      '(d, r) <-? take (N.to_nat n) r ;;
      match r with
      | _ :: _ => None
      | [] => 'es <-? p_exts_cap 5 d ;; Some (mkSH12 v rnd sid s c (Some es), r)
      end
  end.
(** src/dtls13/message/server_hello.rs:119-140 [serialize] *)
Definition s_sh13 (h : ServerHello13) : bytes := s_sh12 h.

(** ** EncryptedExtensions, src/dtls13/message/encrypted_extensions.rs:16-63 *)
Definition p_ee13 (l : bytes) : option (list (N * bytes) * bytes) :=
  '(d, l) <-? p_vec 2 l ;;
  'es <-? p_exts_cap 5 d ;;
  Some (es, l).
Definition s_ee13 (es : list (N * bytes)) : bytes := s_vec 2 (s_exts es).

(** ** Certificate, src/dtls13/message/certificate.rs:25-104: a request context and
    entries of certificate and (uninterpreted) extensions. *)
Fixpoint p_entries13 (fuel : nat) (l : bytes) : option (list (bytes * bytes)) :=
  match l with
  | [] => Some []
  | _ :: _ =>
    match fuel with
    | O => None
    | S f =>
      '(c, r) <-? p_vec 3 l ;;
      '(x, r) <-? p_vec 2 r ;;
      'es <-? p_entries13 f r ;;
      Some ((c, x) :: es)
    end
  end.
Definition p_cert13 (l : bytes) : option ((bytes * list (bytes * bytes)) * bytes) :=
  '(ctx, l) <-? p_vec 1 l ;;
  '(d, l) <-? p_vec 3 l ;;
  'es <-? p_entries13 (length d) d ;;
  if Nat.leb (length es) 32 then Some ((ctx, es), l) else None.
Definition s_entry13 (e : bytes * bytes) : bytes := s_vec 3 (fst e) ++ s_vec 2 (snd e).
Definition s_cert13 (ctx : bytes) (es : list (bytes * bytes)) : bytes :=
  s_vec 1 ctx ++ s_vec 3 (flat_map s_entry13 es).

(** ** Handshake bodies, src/dtls13/message/handshake.rs:375-386, 417-490
    [Body::parse_with_options].  CertificateVerify is [DigitallySigned]
    (src/dtls13/message/digitally_signed.rs), as in DTLS 1.2; Finished takes
    [verify_data_length] bytes (src/dtls13/message/finished.rs:17-31,
    src/types.rs:761-763). *)
Inductive Body13 :=
| D_ClientHello (c : ClientHello13)
| D_ServerHello (h : ServerHello13)
| D_EncryptedExtensions (es : list (N * bytes))
| D_Certificate (ctx : bytes) (es : list (bytes * bytes))
| D_CertificateRequest (raw : bytes)
| D_CertificateVerify (scheme : N) (sig : bytes)
| D_Finished (vd : bytes)
| D_KeyUpdate (requested : bool)
| D_Unknown (t : N).

Definition p_body13 (unknown_ok : bool) (mt : N) (suite : option N) (l : bytes)
  : option (Body13 * bytes) :=
  if mt =? MT_ClientHello then '(c, l) <-? p_ch13 unknown_ok l ;; Some (D_ClientHello c, l)
  else if mt =? MT_ServerHello then '(h, l) <-? p_sh13 l ;; Some (D_ServerHello h, l)
  else if mt =? MT_EncryptedExtensions then
    '(es, l) <-? p_ee13 l ;; Some (D_EncryptedExtensions es, l)
  else if mt =? MT_Certificate then
    '((ctx, es), l) <-? p_cert13 l ;; Some (D_Certificate ctx es, l)
  else if mt =? MT_CertificateRequest then Some (D_CertificateRequest l, [])
  else if mt =? MT_CertificateVerify then
    '((a, s), l) <-? p_signed12 l ;; Some (D_CertificateVerify a s, l)
  else if mt =? MT_Finished then
    's <-? suite ;; '(vd, l) <-? take (hash_len (suite13_hash s)) l ;; Some (D_Finished vd, l)
  else if mt =? MT_KeyUpdate then
    '(b, r) <-? p_u8 l ;;
    match r with
    | _ :: _ => None
    | [] => if b =? 0 then Some (D_KeyUpdate false, r)
            else if b =? 1 then Some (D_KeyUpdate true, r) else None
    end
  else Some (D_Unknown mt, l).

(** ** Extension payloads *)

(** src/dtls13/message/extensions/supported_versions.rs:16-70; [is_unknown]:
    src/types.rs:809-811 *)
Definition versions_known : list N := [V_DTLS10; V_DTLS12; V_DTLS13].
Definition p_versions_ch (l : bytes) : option (list N) :=
  '(n, l) <-? p_u8 l ;;
  if (n =? 0) || negb (n mod 2 =? 0) then None
  else '(d, r) <-? take (N.to_nat n) l ;;
       match r with
       | _ :: _ => None
       | [] => p_list 2 (fun v => memN v versions_known) 3 d
       end.
Definition s_versions_ch (vs : list N) : bytes := be 1 (2 * len vs) ++ s_items 2 vs.
Definition p_versions_sh (l : bytes) : option N :=
  '(v, r) <-? p_u16 l ;; match r with [] => Some v | _ => None end.
Definition s_versions_sh (v : N) : bytes := be 2 v.

(** src/dtls13/message/extensions/supported_groups.rs:15-53: as in DTLS 1.2. *)
Definition p_groups13 (l : bytes) : option (list N) := p_groups12 l.
Definition s_groups13 (gs : list N) : bytes := s_groups12 gs.

(** src/dtls13/message/extensions/signature_algorithms.rs:25-63 *)
Definition p_schemes13 (l : bytes) : option (list N) :=
  '(n, l) <-? p_u16 l ;;
  if (n =? 0) || negb (n mod 2 =? 0) then None
  else '(d, r) <-? take (N.to_nat n) l ;;
       match r with
       | _ :: _ => None
       | [] => p_list 2 (fun a => memN a schemes13_supported) 2 d
       end.
Definition s_schemes13 (a : list N) : bytes := be 2 (2 * len a) ++ s_items 2 a.

(** src/dtls13/message/extensions/key_share.rs:18-47 [KeyShareEntry] *)
Definition p_share (l : bytes) : option ((N * bytes) * bytes) :=
  '(g, l) <-? p_u16 l ;;
  '(k, l) <-? p_vec 2 l ;;
  Some ((g, k), l).
Definition s_share (e : N * bytes) : bytes := be 2 (fst e) ++ s_vec 2 (snd e).
(** src/dtls13/message/extensions/key_share.rs:56-98 [KeyShareClientHello]; the
    capacity is the number of supported groups, 4. *)
Fixpoint p_shares_loop (fuel : nat) (l : bytes) : option (list (N * bytes)) :=
  match l with
  | [] => Some []
  | _ :: _ =>
    match fuel with
    | O => None
    | S f =>
      '(e, r) <-? p_share l ;;
      'es <-? p_shares_loop f r ;;
      Some (if memN (fst e) named_groups_supported then e :: es else es)
    end
  end.
Definition p_shares_ch (l : bytes) : option (list (N * bytes)) :=
  '(d, r) <-? p_vec 2 l ;;
  match r with
  | _ :: _ => None
  | [] => 'es <-? p_shares_loop (length d) d ;;
          if Nat.leb (length es) 4 then Some es else None
  end.
Definition s_shares_ch (es : list (N * bytes)) : bytes := s_vec 2 (flat_map s_share es).
(** src/dtls13/message/extensions/key_share.rs:106-140 *)
Definition p_share_sh (l : bytes) : option (N * bytes) :=
  '(e, r) <-? p_share l ;; match r with [] => Some e | _ => None end.
Definition s_share_sh (e : N * bytes) : bytes := s_share e.
Definition p_share_hrr (l : bytes) : option N :=
  '(g, r) <-? p_u16 l ;; match r with [] => Some g | _ => None end.
Definition s_share_hrr (g : N) : bytes := be 2 g.

(** src/dtls13/message/extensions/cookie.rs:10-21 *)
Definition p_cookie_ext (l : bytes) : option bytes :=
  '(c, r) <-? p_vec 2 l ;;
  match c, r with
  | _ :: _, [] => Some c
  | _, _ => None
  end.
Definition s_cookie_ext (c : bytes) : bytes := s_vec 2 c.
