(** Specification vocabulary, written without the model's codecs: wire layouts
    as explicit byte positions, and list notions used by the statements. *)
From Verif Require Import Prelude.

(** ** DTLS 1.2 record (RFC 6347, 4.1): type, version, epoch, 48-bit sequence
    number, length, fragment. *)
Definition is_record12 (wire : bytes) (ctype version epoch seq : N) (fragment : bytes) : Prop :=
  exists v1 v0 e1 e0 s5 s4 s3 s2 s1 s0 l1 l0,
    wire = [ctype; v1; v0; e1; e0; s5; s4; s3; s2; s1; s0; l1; l0] ++ fragment /\
    version = v1 * 2^8 + v0 /\
    epoch = e1 * 2^8 + e0 /\
    seq = s5 * 2^40 + s4 * 2^32 + s3 * 2^24 + s2 * 2^16 + s1 * 2^8 + s0 /\
    N.of_nat (length fragment) = l1 * 2^8 + l0.

(** The headers the library accepts (RFC 6347 plus: epoch 0 carries no
    application data). *)
Definition valid_header12 (ctype version epoch : N) : Prop :=
  (version = 65279 (* FE FF *) \/ version = 65277 (* FE FD *)) /\
  (epoch = 0 -> ctype = 20 \/ ctype = 21 \/ ctype = 22).

(** ** DTLS handshake fragment (RFC 6347, 4.2.2) *)
Definition is_fragment (wire : bytes) (mtype total seq off : N) (data : bytes) : Prop :=
  exists t2 t1 t0 q1 q0 o2 o1 o0 f2 f1 f0,
    wire = [mtype; t2; t1; t0; q1; q0; o2; o1; o0; f2; f1; f0] ++ data /\
    total = t2 * 2^16 + t1 * 2^8 + t0 /\
    seq = q1 * 2^8 + q0 /\
    off = o2 * 2^16 + o1 * 2^8 + o0 /\
    N.of_nat (length data) = f2 * 2^16 + f1 * 2^8 + f0.
