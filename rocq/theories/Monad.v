(** Outcomes and the state monad in which the stateful code is modelled. *)
From Verif Require Import Prelude.

(** src/error.rs:21-65 [Error] and src/error.rs:666-700 [InternalError].
    All transient errors are one constructor: the public API turns each of them
    into "packet ignored" ([into_public_error], src/error.rs:684-692), so they
    cannot be told apart.  The payloads of fatal errors are reduced to what the
    properties look at. *)
Inductive timeout_kind := TO_Hybrid | TO_Connect | TO_Handshake.

Inductive error :=
| ETransient            (* ParseIncomplete, Parse(_), TooManyRecords *)
| EUnexpected           (* UnexpectedMessage *)
| EInvalidState
| ECrypto               (* CryptoError *)
| ECertificate
| ESecurity (tag : N)   (* SecurityError; tags below *)
| EFatalAlert (d : N)   (* SecurityError::FatalAlert *)
| EPsk
| ERxFull               (* ReceiveQueueFull *)
| ETxFull               (* TransmitQueueFull *)
| EIncompleteSH         (* IncompleteServerHello *)
| ETimeout (k : timeout_kind)
| EConfig (tag : N)     (* ConfigError; tags in Config.v *)
| ERenegotiation
| EHandshakePending
| EClosed               (* ConnectionClosed *)
| ETooManyFragments     (* TooManyClientHelloFragments *)
| EFallback.            (* Dtls12Fallback *)

(** The security errors the properties distinguish. *)
Definition SE_other : N := 0.
Definition SE_suite_disallowed : N := 1.
Definition SE_no_ems : N := 2.
Definition SE_finished : N := 3.
Definition SE_no_common_suite : N := 4.
Definition SE_version : N := 5.
Definition SE_second_hrr : N := 6.
Definition SE_cookie : N := 7.
Definition SE_signature : N := 8.
Definition SE_compression : N := 9.
Definition SE_no_common_group : N := 10.
Definition SE_suite_incompatible : N := 11.

(** A call returns a value, returns an error, or panics ([expect], [unwrap],
    [assert!], index out of bounds).  The number is the source line of the panic
    site. *)
Inductive res (A : Type) :=
| Ok (a : A)
| Err (e : error)
| Panic (n : N).
Arguments Ok {A} a.
Arguments Err {A} e.
Arguments Panic {A} n.

(** [&mut self] methods returning [Result]: the state is kept on error. *)
Definition M (S A : Type) := S -> res A * S.

Definition ret {S A} (a : A) : M S A := fun s => (Ok a, s).
Definition fail {S A} (e : error) : M S A := fun s => (Err e, s).
Definition panic {S A} (n : N) : M S A := fun s => (Panic n, s).
Definition get {S} : M S S := fun s => (Ok s, s).
Definition gets {S A} (f : S -> A) : M S A := fun s => (Ok (f s), s).
Definition modify {S} (f : S -> S) : M S unit := fun s => (Ok tt, f s).
Definition bind {S A B} (m : M S A) (k : A -> M S B) : M S B :=
  fun s => match m s with
           | (Ok a, s') => k a s'
           | (Err e, s') => (Err e, s')
           | (Panic n, s') => (Panic n, s')
           end.

(** The embedded engine of a client or server ([self.engine]). *)
Definition zoom {S T A} (g : S -> T) (p : T -> S -> S) (m : M T A) : M S A :=
  fun s => match m (g s) with (r, t) => (r, p t s) end.

(** [Option::ok_or(e)?] *)
Definition of_opt {S A} (e : error) (o : option A) : M S A :=
  match o with Some a => ret a | None => fail e end.

Notation "'let!' p := m 'in' k" := (bind m (fun p => k))
  (at level 200, p pattern, m at level 100, k at level 200, right associativity).
Notation "m ;;; k" := (bind m (fun _ => k)) (at level 199, right associativity).

Definition when {S} (b : bool) (m : M S unit) : M S unit := if b then m else ret tt.

(** [for x in l { f(x)?; }] *)
Fixpoint iterM {S A} (f : A -> M S unit) (l : list A) : M S unit :=
  match l with
  | [] => ret tt
  | x :: r => f x ;;; iterM f r
  end.
