(** src/crypto/prf_hkdf.rs: TLS 1.2 PRF, HKDF and HkdfLabel over the provider's
    HMAC. *)
From Coq Require Import String Ascii.
From Verif Require Import Prelude Types Env.
Close Scope string_scope.

(** Byte string of an ASCII literal. *)
Definition str (s : string) : bytes := map N_of_ascii (list_ascii_of_string s).

(** src/crypto/prf_hkdf.rs:53-66: the output loop.  [a] is A(i).
    The Rust loop ends because each round appends at least one byte; with a
    provider returning empty tags it would not terminate, here it fails. *)
Fixpoint prf_loop (E : Env) (h : N) (secret ls : bytes) (fuel : nat) (a : bytes) (out_len : nat)
  : option bytes :=
  match out_len with
  | O => Some []
  | S _ =>
    match fuel with
    | O => None
    | S f =>
      'blk <-? e_hmac E h secret (a ++ ls) ;;
      let n := Nat.min out_len (length blk) in
      if Nat.ltb n out_len then
        'a' <-? e_hmac E h secret a ;;
        'r <-? prf_loop E h secret ls f a' (out_len - n) ;;
        Some (firstn n blk ++ r)
      else Some (firstn n blk)
    end
  end.

(** src/crypto/prf_hkdf.rs:23-70 [prf_tls12] *)
Definition prf_tls12 (E : Env) (h : N) (secret label seed : bytes) (out_len : nat) : option bytes :=
  let ls := label ++ seed in
  'a <-? e_hmac E h secret ls ;;
  prf_loop E h secret ls out_len a out_len.

(** src/crypto/prf_hkdf.rs:77-97 [hkdf_extract] *)
Definition hkdf_extract (E : Env) (h : N) (salt ikm : bytes) : option bytes :=
  let salt' := match salt with [] => repeat 0 (hash_len h) | _ => salt end in
  e_hmac E h salt' ikm.

(** src/crypto/prf_hkdf.rs:119-130: T(i) = HMAC(prk, T(i-1) || info || i). *)
Fixpoint hkdf_loop (E : Env) (h : N) (prk info : bytes) (rounds : nat) (i : N) (t : bytes)
  (out_len : nat) : option bytes :=
  match rounds with
  | O => Some []
  | S r =>
    't' <-? e_hmac E h prk (t ++ info ++ [u8 i]) ;;
    let n := Nat.min out_len (length t') in
    'rest <-? hkdf_loop E h prk info r (i + 1) t' (out_len - n) ;;
    Some (firstn n t' ++ rest)
  end.

Definition div_ceil (a b : nat) : nat := Nat.div (a + b - 1) b.

(** src/crypto/prf_hkdf.rs:100-133 [hkdf_expand] *)
Definition hkdf_expand (E : Env) (h : N) (prk info : bytes) (out_len : nat) : option bytes :=
  let n := div_ceil out_len (hash_len h) in
  if Nat.ltb 255 n then None else hkdf_loop E h prk info n 1 [] out_len.

(** src/crypto/prf_hkdf.rs:178-213 [build_hkdf_label] *)
Definition hkdf_label (prefix label context : bytes) (out_len : N) : option bytes :=
  if (255 <? len prefix + len label) || (255 <? len context) || (65535 <? out_len) then None
  else Some (be 2 out_len ++ be 1 (len prefix + len label) ++ prefix ++ label ++
             be 1 (len context) ++ context).

(** src/crypto/prf_hkdf.rs:139-149 [hkdf_expand_label] *)
Definition hkdf_expand_label (E : Env) (h : N) (secret label context : bytes) (out_len : nat)
  : option bytes :=
  'info <-? hkdf_label (str "tls13 ") label context (N.of_nat out_len) ;;
  hkdf_expand E h secret info out_len.
(** src/crypto/prf_hkdf.rs:154-165 [hkdf_expand_label_dtls13] *)
Definition hkdf_expand_label13 (E : Env) (h : N) (secret label context : bytes) (out_len : nat)
  : option bytes :=
  'info <-? hkdf_label (str "dtls13") label context (N.of_nat out_len) ;;
  hkdf_expand E h secret info out_len.
