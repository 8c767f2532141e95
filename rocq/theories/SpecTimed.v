(** Independent specification of the time that receiving takes. *)
From Verif Require Import Py Transport SpecTransport.
Open Scope list_scope.
Open Scope Z_scope.

(** the calls recv(1) of the socket or read(1) of the port, one after the other: how
    long each takes, and the byte or the exception it gives *)
Definition timed := list (Z * res Z).
Definition as_read (x : Z * res Z) : res bytes := match snd x with Ok b => Ok [b] | Err e => Err e end.
Definition spent (reads : timed) : Z := fold_right Z.add 0 (map fst reads).
(** time does not go back; the socket or port keeps to the timeout that it has been
    given (create_connection(timeout=...), Serial(timeout=...)) *)
Definition forward (reads : timed) : Prop := Forall (fun x => 0 <= fst x) reads.
Definition punctual (timeout : Z) (reads : timed) : Prop := Forall (fun x => 0 <= fst x <= timeout) reads.
(** The clock shows these times: recv looks at it when it begins, the n-th time, and
    then after each byte. *)
Definition shows (now : clock) (n : nat) (reads : timed) : Prop :=
  forall used rest, reads = used ++ rest -> now (n + length used)%nat = now n + spent used.

(** bytes, none of them 0x0D, and all of them before the time is over *)
Definition unfinished (timeout : Z) (reads : timed) : Prop :=
  Forall (fun x => exists b, snd x = Ok b /\ b <> 13) reads /\
  (forall used rest, reads = used ++ rest -> used <> [] -> spent used < timeout).
(** What recv makes of the reads: [used] are made, and then [rest] is left. *)
Definition in_time (timeout : Z) (used rest : timed) (a : answer bytes) : Prop :=
  match a with
  | Done (Ok data) => map snd used = map Ok data /\
      exists front last, used = front ++ [last] /\ unfinished timeout front /\ (snd last = Ok 13 \/ timeout <= spent used)
  | Done (Err x) => exists front d y, used = front ++ [(d, Err y)] /\ unfinished timeout front /\ x = relayed y
  | Waiting => rest = [] /\ unfinished timeout used
  end.

(** bytes (in reads of any size) and then an exception, and after it [more] *)
Definition breaks (reads : list (res bytes)) (x : exn) (more : list (res bytes)) : Prop :=
  exists chunks, reads = map Ok chunks ++ Err x :: more.
