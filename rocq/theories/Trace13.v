(** The steps of the DTLS 1.3 handshake logic that a call makes, for statements
    about how often something is done. *)
From Verif Require Import Prelude Types Monad MonadFacts Env Config Engine12 Client12 Engine13 Client13 Server13
  History12 History13.

(** One step: the endpoint before, what [make_progress] of the current state
    returned, the endpoint after. *)
Definition XMove := (Client13 * res CState13 * Client13)%type.
Definition YMove := (Server13 * res SState13 * Server13)%type.

Section Moves.
Variable E : Env.

(** The iterations of [x_progress] (src/dtls13/client.rs:302-315). *)
Fixpoint x_moves (fuel : nat) (c : Client13) : list XMove :=
  match fuel with
  | O => []
  | S fuel' =>
    let '(r, c') := x_step E (xc_state c) c in
    (c, r, c') ::
    match r with
    | Ok st => if cstate13_eqb (xc_state c) st then [] else x_moves fuel' (set_xc_state st c')
    | _ => []
    end
  end.
(** The iterations of [y_progress] (src/dtls13/server.rs:343-356). *)
Fixpoint y_moves (fuel : nat) (s : Server13) : list YMove :=
  match fuel with
  | O => []
  | S fuel' =>
    let '(r, s') := y_step E (xs_state s) s in
    (s, r, s') ::
    match r with
    | Ok st => if sstate13_eqb (xs_state s) st then [] else y_moves fuel' (set_xs_state st s')
    | _ => []
    end
  end.

(** Those of a call: [handle_packet] and [handle_timeout] first run the engine. *)
Definition draw_random13 (c : Client13) : Client13 :=
  match xc_random c with
  | Some _ => c
  | None => snd ((let! r := xeng (rand_bytes13 E 32) in modify (set_xc_random (Some r))) c)
  end.
Definition client13_moves (call : Call) (c : Client13) : list XMove :=
  match call with
  | Packet p => match xeng (eng13_parse_packet E p) c with (Ok _, c1) => x_moves 40 c1 | _ => [] end
  | Tick now => match xeng (eng13_handle_timeout E now) (draw_random13 (set_xc_now now c)) with
                | (Ok _, c1) => x_moves 40 c1
                | _ => []
                end
  | _ => []
  end.
Definition draw_random13s (s : Server13) : Server13 :=
  match xs_random s with
  | Some _ => s
  | None => snd ((let! r := yeng (rand_bytes13 E 32) in modify (set_xs_random (Some r))) s)
  end.
Definition server13_moves (call : Call) (s : Server13) : list YMove :=
  match call with
  | Packet p =>
    let go := fun s => match yeng (eng13_parse_packet E p) s with (Ok _, s1) => y_moves 40 s1 | _ => [] end in
    if xs_auto s && sstate13_eqb (xs_state s) ST_AwaitClientHello then
      if MAX_RETAINED <=? len (xs_hellos s) then []
      else go (set_xs_hellos (xs_hellos s ++ [p]) s)
    else go s
  | Tick now => match yeng (eng13_handle_timeout E now) (draw_random13s (set_xs_now now s)) with
                | (Ok _, s1) => y_moves 40 s1
                | _ => []
                end
  | _ => []
  end.

(** All steps of the calls [cs] made one after the other. *)
Fixpoint x_trace (cs : list Call) (c : Client13) : list XMove :=
  match cs with
  | [] => []
  | k :: r => client13_moves k c ++ x_trace r (snd (client13_call E k c))
  end.
Fixpoint y_trace (cs : list Call) (s : Server13) : list YMove :=
  match cs with
  | [] => []
  | k :: r => server13_moves k s ++ y_trace r (snd (server13_call E k s))
  end.
End Moves.
