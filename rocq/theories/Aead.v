(** src/crypto/dtls_aead.rs: nonces and additional data. *)
From Verif Require Import Prelude.

(** src/crypto/dtls_aead.rs:126-134 [Nonce::xor] of a 12-byte IV: the last 8
    bytes are xored with the big-endian sequence number. *)
Definition nonce_xor (iv : bytes) (seq : N) : bytes :=
  firstn 4 iv ++ map (fun '(a, b) => N.lxor a b) (combine (skipn 4 iv) (be 8 seq)).

(** src/crypto/dtls_aead.rs:106-119 [Nonce::new]; the assertion on the total
    length is made by the callers in [Engine12]. *)
Definition nonce_concat (iv explicit : bytes) : bytes := iv ++ explicit.

(** src/crypto/dtls_aead.rs:145-168 [Aad::new_dtls12] *)
Definition aad12 (ctype epoch seq plen : N) : bytes :=
  be 2 epoch ++ be 6 seq ++ [ctype; 254; 253] ++ be 2 plen.

(** src/dtls12/engine.rs:798, 1190: [(epoch << 48) | sequence_number] as u64 *)
Definition seq64 (epoch seq : N) : N := u64 (N.lor (N.shiftl epoch 48) seq).
