(** * Specification vocabulary for nxwrap.py *)
From Verif Require Export Nx NetSpec.
Local Open Scope nat_scope.

(** A call of a wrapped function. *)
Record call_of := Call { c_args : list value; c_kwargs : list (string * value); c_body : list value -> list (string * value) -> prog }.
Definition call (c : call_of) : prog := PCall (c_args c) (c_kwargs c) (c_body c) (fun o => match o with ORet v => PRet v | ORaise e => PRaise e end).
(** The networks among the arguments are all plain and undirected. *)
Definition accepted (w : world) (c : call_of) : Prop :=
  forall i, VNet i ∈ c_args c ++ (c_kwargs c).*2 -> nets w !! i = Some (0, false).
(** Calls made one after the other, exceptions being caught by the caller: the state before
    each call, the call and its outcome. *)
Inductive session : world -> list (world * call_of * outcome) -> world -> Prop :=
| session_nil w : session w [] w
| session_snoc w0 tr w c w' o : session w0 tr w -> exec (call c) w = (w', o) -> session w0 (tr ++ [(w, c, o)]) w'.

(** From [n] to [n'] the link between [x] and [y] gets the weight [w], [x] and [y] become
    nodes, and nothing else changes. *)
Definition link_set (n n' : mlnet) (x y : name) (w : Z) : Prop :=
  (forall v, reads n' [x] [y] v <-> v = w) /\ (forall v, reads n' [y] [x] v <-> v = w) /\
  (forall a b v, ~ (a = x /\ b = y) -> ~ (a = y /\ b = x) -> reads n' [a] [b] v <-> reads n [a] [b] v) /\
  (forall z, has_elem n' 0 z <-> has_elem n 0 z \/ z = x \/ z = y).
