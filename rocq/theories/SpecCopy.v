(** Specification of independent copies. *)
From Verif Require Import Base NdArray Copy.
Open Scope list_scope.
Open Scope nat_scope.

(** ** What can be observed of an object: its content down to any depth *)
Inductive tree :=
| TLeaf (e : elt)
| TMap (t : mapping_type) (d : list (string * tree))
| TList (l : list tree)
| TArr (k : dkind) (shape : list nat) (mask : bool) (es : list elt)
| TBuf (es : list elt)
| TDeeper | TInvalid.

Fixpoint observe (depth : nat) (h : heap) (r : ref) : tree :=
  match r with
  | RAtom e => TLeaf e
  | RLoc l =>
      match depth with
      | O => TDeeper
      | S depth =>
          match nth_error h l with
          | Some (CMap t d) => TMap t (map (fun kr => (fst kr, observe depth h (snd kr))) d)
          | Some (CList rs) => TList (map (observe depth h) rs)
          | Some (CArr k shape idx mask buf) =>
              match nth_error h buf with
              | Some (CBuf es) => TArr k shape mask (pick es idx)
              | _ => TInvalid
              end
          | Some (CBuf es) => TBuf es
          | None => TInvalid
          end
      end
  end.

(** ** Programs that work on objects *)
Definition refs_of (c : cell) : list ref :=
  match c with
  | CMap _ d => map snd d
  | CList rs => rs
  | CArr _ _ _ _ buf => [RLoc buf]
  | CBuf _ => []
  end.

(** Heaps without dangling references; arrays refer to buffers and nothing
    else does (buffers are no Python objects) *)
Definition is_buf (h : heap) (l : nat) : Prop := exists es, nth_error h l = Some (CBuf es).
Definition proper (h : heap) (r : ref) : Prop :=
  match r with RAtom _ => True | RLoc l => exists c, nth_error h l = Some c /\ ~ is_buf h l end.
Definition proper_cell (h : heap) (c : cell) : Prop :=
  match c with
  | CArr _ _ _ _ buf => is_buf h buf
  | _ => forall r, In r (refs_of c) -> proper h r
  end.
Definition wf_heap (h : heap) : Prop := forall l c, nth_error h l = Some c -> proper_cell h c.

(** locations that can be reached from the references [roots] *)
Inductive reach (h : heap) (roots : list ref) : nat -> Prop :=
| reach_root l : In (RLoc l) roots -> reach h roots l
| reach_next l c l' : reach h roots l -> nth_error h l = Some c -> In (RLoc l') (refs_of c) -> reach h roots l'.

(** A program knows some objects, [mine], and can follow references, create
    objects, and change the objects it can reach in place in any way that uses
    the references it knows. *)
Definition known (h : heap) (mine : list ref) (r : ref) : Prop :=
  match r with RAtom _ => True | RLoc l => reach h mine l end.

Inductive step (h : heap) (mine : list ref) : heap -> list ref -> Prop :=
| step_hold r : known h mine r -> step h mine h (r :: mine)
| step_new c : (forall r, In r (refs_of c) -> known h mine r) ->
    step h mine (h ++ [c]) (RLoc (List.length h) :: mine)
| step_write l c : reach h mine l -> (forall r, In r (refs_of c) -> known h mine r) ->
    step h mine (set_nth l c h) mine.

(** Two programs that run interleaved on the same heap *)
Inductive run (h : heap) (a b : list ref) : heap -> list ref -> list ref -> Prop :=
| run_start : run h a b h a b
| run_a h1 a1 b1 h2 a2 : run h a b h1 a1 b1 -> step h1 a1 h2 a2 -> run h a b h2 a2 b1
| run_b h1 a1 b1 h2 b2 : run h a b h1 a1 b1 -> step h1 b1 h2 b2 -> run h a b h2 a1 b2.
