(** DTLS 1.2 handshake message codecs (src/dtls12/message/*.rs).  Byte ranges
    into a shared buffer are replaced by the bytes they denote. *)
From Verif Require Import Prelude Types Codec.

(** ** Extension types *)
(** src/dtls12/message/extension.rs:58-97 *)
Definition X_GROUPS   : N := 10.
Definition X_POINTS   : N := 11.
Definition X_SIGALGS  : N := 13.
Definition X_SRTP     : N := 14.
Definition X_ETM      : N := 22.
Definition X_EMS      : N := 23.
Definition X_TICKET   : N := 35.
Definition X_RENEG    : N := 65281. (* 0xFF01 *)
(** src/dtls12/message/extension.rs:125-137 [supported] *)
Definition ext12_supported (t : N) : bool :=
  memN t [X_GROUPS; X_POINTS; X_SIGALGS; X_SRTP; X_ETM; X_EMS; X_RENEG; X_TICKET].

(** ** Message types, src/dtls12/message/handshake.rs:337-348 *)
Definition MT_HelloRequest : N := 0.
Definition MT_ClientHello : N := 1.
Definition MT_ServerHello : N := 2.
Definition MT_HelloVerifyRequest : N := 3.
Definition MT_NewSessionTicket : N := 4.
Definition MT_Certificate : N := 11.
Definition MT_ServerKeyExchange : N := 12.
Definition MT_CertificateRequest : N := 13.
Definition MT_ServerHelloDone : N := 14.
Definition MT_CertificateVerify : N := 15.
Definition MT_ClientKeyExchange : N := 16.
Definition MT_Finished : N := 20.

(** src/dtls12/message/handshake.rs:358-364 [is_unknown] *)
Definition mt12_known (t : N) : bool :=
  (t <=? 4) || ((11 <=? t) && (t <=? 16)) || (t =? 20).
(** src/dtls12/message/handshake.rs:371-377 [epoch] *)
Definition mt12_epoch (t : N) : N :=
  if (t =? MT_NewSessionTicket) || (t =? MT_Finished) then 1 else 0.

(** ** ClientHello, src/dtls12/message/client_hello.rs:17-25 *)
Record ClientHello12 := mkCH12 {
  ch_version : N; ch_random : bytes; ch_sid : bytes; ch_cookie : bytes;
  ch_suites : list N; ch_comps : list N; ch_exts : list (N * bytes) }.

(** src/dtls12/message/id.rs:69-78 [SessionId::parse] (0..32),
    [Cookie::parse] (0..255) *)
Definition p_sid (l : bytes) : option (bytes * bytes) :=
  '(n, r) <-? p_u8 l ;;
  if 32 <? n then None else take (N.to_nat n) r.
Definition p_cookie (l : bytes) : option (bytes * bytes) := p_vec 1 l.

(** src/dtls12/message/client_hello.rs:166-219 [parse_extensions] *)
Definition p_ch12_exts (l : bytes) : option (list (N * bytes) * bytes) :=
  match l with
  | [] => Some ([], l)
  | _ :: _ =>
    '(n, r) <-? p_u16 l ;;
    if n =? 0 then Some ([], r)
    else
      '(d, r) <-? take (N.to_nat n) r ;;
      'es <-? p_exts ext12_supported d ;;
      Some (es, r)
  end.

(** src/dtls12/message/client_hello.rs:123-163 [parse] *)
Definition p_ch12 (l : bytes) : option (ClientHello12 * bytes) :=
  '(v, l) <-? p_u16 l ;;
  '(rnd, l) <-? take 32 l ;;
  '(sid, l) <-? p_sid l ;;
  '(ck, l) <-? p_cookie l ;;
  '(sd, l) <-? p_vec 2 l ;;
  'ss <-? p_list1 2 (fun s => memN s suites12_supported) 4 sd ;;
  '(cd, l) <-? p_vec 1 l ;;
  'cs <-? p_list1 1 (fun c => c =? 0) 1 cd ;;
  '(es, l) <-? p_ch12_exts l ;;
  Some (mkCH12 v rnd sid ck ss cs es, l).

(** src/dtls12/message/client_hello.rs:221-255 [serialize] *)
Definition s_ch12 (c : ClientHello12) : bytes :=
  be 2 (ch_version c) ++ ch_random c ++ s_vec 1 (ch_sid c) ++ s_vec 1 (ch_cookie c) ++
  be 2 (2 * len (ch_suites c)) ++ s_items 2 (ch_suites c) ++
  be 1 (len (ch_comps c)) ++ s_items 1 (ch_comps c) ++
  match ch_exts c with
  | [] => []
  | es => s_vec 2 (s_exts es)
  end.

(** ** ServerHello, src/dtls12/message/server_hello.rs:12-19 *)
Record ServerHello12 := mkSH12 {
  sh_version : N; sh_random : bytes; sh_sid : bytes; sh_suite : N; sh_comp : N;
  sh_exts : option (list (N * bytes)) }.

(** src/dtls12/message/server_hello.rs:85-160 [parse] *)
Definition p_sh12 (l : bytes) : option (ServerHello12 * bytes) :=
  '(v, l) <-? p_u16 l ;;
  '(rnd, l) <-? take 32 l ;;
  '(sid, l) <-? p_sid l ;;
  '(s, l) <-? p_u16 l ;;
  '(c, l) <-? p_u8 l ;;
  match l with
  | [] => Some (mkSH12 v rnd sid s c None, l)
  | _ :: _ =>
    '(n, r) <-? p_u16 l ;;
    if n =? 0 then Some (mkSH12 v rnd sid s c None, r)
    else
      '(d, r) <-? take (N.to_nat n) r ;;
      match r with
      | _ :: _ => None
      | [] => 'es <-? p_exts ext12_supported d ;; Some (mkSH12 v rnd sid s c (Some es), r)
      end
  end.

(** src/dtls12/message/server_hello.rs:162-186 [serialize] *)
Definition s_sh12 (h : ServerHello12) : bytes :=
  be 2 (sh_version h) ++ sh_random h ++ s_vec 1 (sh_sid h) ++ be 2 (sh_suite h) ++
  be 1 (sh_comp h) ++
  match sh_exts h with
  | None => []
  | Some es => s_vec 2 (s_exts es)
  end.

(** ** HelloVerifyRequest, src/dtls12/message/hello_verify.rs:21-42 *)
Definition p_hvr12 (l : bytes) : option ((N * bytes) * bytes) :=
  '(v, l) <-? p_u16 l ;;
  '(c, l) <-? p_cookie l ;;
  match c with [] => None | _ => Some ((v, c), l) end.
Definition s_hvr12 (h : N * bytes) : bytes := be 2 (fst h) ++ s_vec 1 (snd h).

(** ** Certificate, src/dtls12/message/certificate.rs:19-57 *)
Definition p_cert12 (l : bytes) : option (list bytes * bytes) :=
  '(d, l) <-? p_vec 3 l ;;
  'cs <-? p_vecs (length d) 3 0 d ;;
  if Nat.leb (length cs) 32 then Some (cs, l) else None.
Definition s_cert12 (cs : list bytes) : bytes := s_vec 3 (s_vecs 3 cs).

(** ** DigitallySigned / CertificateVerify,
    src/dtls12/message/digitally_signed.rs:18-43, certificate_verify.rs:11-18 *)
Definition p_signed12 (l : bytes) : option ((N * bytes) * bytes) :=
  '(a, l) <-? p_u16 l ;;
  '(s, l) <-? p_vec 2 l ;;
  Some ((a, s), l).
Definition s_signed12 (d : N * bytes) : bytes := be 2 (fst d) ++ s_vec 2 (snd d).

(** ** CertificateRequest, src/dtls12/message/certificate_request.rs:12-106 *)
Record CertReq12 := mkCR12 { cr_types : list N; cr_sigalgs : list N; cr_auths : list bytes }.
Definition p_cr12 (l : bytes) : option (CertReq12 * bytes) :=
  '(td, l) <-? p_vec 1 l ;;
  'ts <-? p_list1 1 (fun t => t =? 64) 1 td ;;
  '(sd, l) <-? p_vec 2 l ;;
  'ss <-? p_list 2 (fun a => memN a sigalgs12_supported) 4 sd ;;
  '(ad, l) <-? p_vec 2 l ;;
  'auths <-? p_vecs (length ad) 2 1 ad ;;
  if Nat.leb (length auths) 32 then Some (mkCR12 ts ss auths, l) else None.
Definition s_cr12 (r : CertReq12) : bytes :=
  be 1 (len (cr_types r)) ++ s_items 1 (cr_types r) ++
  be 2 (2 * len (cr_sigalgs r)) ++ s_items 2 (cr_sigalgs r) ++
  s_vec 2 (s_vecs 2 (cr_auths r)).

(** ** ServerKeyExchange, src/dtls12/message/server_key_exchange.rs:21-163 *)
Inductive SKE12 :=
| SKE_ecdh (curve group : N) (pub : bytes) (sig : option (N * bytes))
| SKE_psk (hint : bytes).
Definition p_ske12 (k : kxalg) (l : bytes) : option (SKE12 * bytes) :=
  match k with
  | KX_ECDHE =>
    '(c, l) <-? p_u8 l ;;
    '(g, l) <-? p_u16 l ;;
    '(pk, l) <-? p_vec 1 l ;;
    match l with
    | [] => Some (SKE_ecdh c g pk None, l)
    | _ :: _ => '(sg, l) <-? p_signed12 l ;; Some (SKE_ecdh c g pk (Some sg), l)
    end
  | KX_PSK => '(h, l) <-? p_vec 2 l ;; Some (SKE_psk h, l)
  | KX_UNKNOWN => None
  end.
Definition s_ske12 (with_sig : bool) (s : SKE12) : bytes :=
  match s with
  | SKE_ecdh c g pk sg =>
    be 1 c ++ be 2 g ++ s_vec 1 pk ++
    (if with_sig then match sg with Some d => s_signed12 d | None => [] end else [])
  | SKE_psk h => s_vec 2 h
  end.

(** ** ClientKeyExchange, src/dtls12/message/client_key_exchange.rs:30-140 *)
Inductive CKE12 := CKE_ecdh (pub : bytes) | CKE_psk (identity : bytes).
Definition p_cke12 (k : kxalg) (l : bytes) : option (CKE12 * bytes) :=
  match k with
  | KX_ECDHE => '(pk, l) <-? p_vec 1 l ;; Some (CKE_ecdh pk, l)
  | KX_PSK => '(i, l) <-? p_vec 2 l ;; Some (CKE_psk i, l)
  | KX_UNKNOWN => None
  end.
Definition s_cke12 (c : CKE12) : bytes :=
  match c with CKE_ecdh pk => s_vec 1 pk | CKE_psk i => s_vec 2 i end.

(** ** Handshake bodies, src/dtls12/message/handshake.rs:408-424, 432-494
    [Body::parse] *)
Inductive Body12 :=
| B_HelloRequest
| B_ClientHello (c : ClientHello12)
| B_HelloVerifyRequest (version : N) (cookie : bytes)
| B_ServerHello (h : ServerHello12)
| B_Certificate (certs : list bytes)
| B_ServerKeyExchange (s : SKE12)
| B_CertificateRequest (r : CertReq12)
| B_ServerHelloDone
| B_CertificateVerify (alg : N) (sig : bytes)
| B_ClientKeyExchange (c : CKE12)
| B_NewSessionTicket (d : bytes)
| B_Finished (vd : bytes)
| B_Unknown (t : N).

Definition p_body12 (mt : N) (suite : option N) (l : bytes) : option (Body12 * bytes) :=
  if mt =? MT_HelloRequest then Some (B_HelloRequest, l)
  else if mt =? MT_ClientHello then '(c, l) <-? p_ch12 l ;; Some (B_ClientHello c, l)
  else if mt =? MT_HelloVerifyRequest then
    '((v, c), l) <-? p_hvr12 l ;; Some (B_HelloVerifyRequest v c, l)
  else if mt =? MT_ServerHello then '(h, l) <-? p_sh12 l ;; Some (B_ServerHello h, l)
  else if mt =? MT_Certificate then '(c, l) <-? p_cert12 l ;; Some (B_Certificate c, l)
  else if mt =? MT_ServerKeyExchange then
    's <-? suite ;; '(k, l) <-? p_ske12 (suite12_kx s) l ;; Some (B_ServerKeyExchange k, l)
  else if mt =? MT_CertificateRequest then
    '(r, l) <-? p_cr12 l ;; Some (B_CertificateRequest r, l)
  else if mt =? MT_ServerHelloDone then Some (B_ServerHelloDone, l)
  else if mt =? MT_CertificateVerify then
    '((a, s), l) <-? p_signed12 l ;; Some (B_CertificateVerify a s, l)
  else if mt =? MT_ClientKeyExchange then
    's <-? suite ;; '(k, l) <-? p_cke12 (suite12_kx s) l ;; Some (B_ClientKeyExchange k, l)
  else if mt =? MT_NewSessionTicket then Some (B_NewSessionTicket l, [])
  else if mt =? MT_Finished then
    's <-? suite ;; '(vd, l) <-? take 12 l ;; Some (B_Finished vd, l)
  else Some (B_Unknown mt, l).

(** ** Extension payloads *)

(** src/dtls12/message/extensions/supported_groups.rs:15-52 *)
Definition p_groups12 (l : bytes) : option (list N) :=
  '(n, l) <-? p_u16 l ;;
  if negb (n mod 2 =? 0) then None
  else '(d, r) <-? take (N.to_nat n) l ;;
       match r with
       | _ :: _ => None
       | [] => p_list 2 (fun g => memN g named_groups_supported) 4 d
       end.
Definition s_groups12 (gs : list N) : bytes := be 2 (2 * len gs) ++ s_items 2 gs.

(** src/dtls12/message/extensions/signature_algorithms.rs:24-66 *)
Definition p_sigalgs12 (l : bytes) : option (list N) :=
  '(n, l) <-? p_u16 l ;;
  if (n =? 0) || negb (n mod 2 =? 0) then None
  else '(d, r) <-? take (N.to_nat n) l ;;
       match r with
       | _ :: _ => None
       | [] => p_list 2 (fun a => memN a sigalgs12_supported) 4 d
       end.
Definition s_sigalgs12 (a : list N) : bytes := be 2 (2 * len a) ++ s_items 2 a.

(** src/dtls12/message/extensions/ec_point_formats.rs:57-97 *)
Definition p_points12 (l : bytes) : option (list N) :=
  '(d, r) <-? p_vec 1 l ;;
  match r with
  | _ :: _ => None
  | [] => p_list 1 (fun f => f <=? 2) 3 d
  end.
Definition s_points12 (fs : list N) : bytes := be 1 (len fs) ++ s_items 1 fs.

(** src/dtls12/message/extensions/use_srtp.rs:105-167; the DTLS 1.3 copy
    (src/dtls13/message/extensions/use_srtp.rs) is the same. *)
Definition p_srtp (l : bytes) : option (list N * bytes) :=
  '(d, l) <-? p_vec 2 l ;;
  'ps <-? p_list 2 (fun p => memN p srtp_known) 3 d ;;
  '(mki, r) <-? p_vec 1 l ;;
  match r with
  | _ :: _ => None
  | [] => Some (ps, mki)
  end.
Definition s_srtp (ps : list N) (mki : bytes) : bytes :=
  be 2 (2 * len ps) ++ s_items 2 ps ++ s_vec 1 mki.
