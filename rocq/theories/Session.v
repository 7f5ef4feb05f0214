(** Life cycle of streams: entering and leaving [with] blocks.

    Models /repo/sofar/sofastream.py:67-84 and what accessing data does before,
    inside and after a [with] block. Open files are objects with an identity
    (netCDF4.Dataset), a stream refers to the file it opened last.
    Simplifications: the files on the disk are not changed while they are open;
    a variable that an access returns stands for its data at that time, whereas
    netCDF4.Variable is a reference that cannot be used after the file is closed. *)
From Verif Require Import Base PyStr PyNum NdArray Sofa Verify Io Stream.
Open Scope string_scope.
Open Scope list_scope.
Open Scope nat_scope.

(** netCDF4.Dataset(filename): content and whether it is open,
    /repo/sofar/sofastream.py:76 *)
Record dataset := Dataset { ds_content : ncfile; ds_open : bool }.

(** SofaStream: [_filename] and [_file], which does not exist before
    [__enter__] has been called, /repo/sofar/sofastream.py:67-77 *)
Record stream := Stream { st_name : string; st_file : option nat }.

(** the streams and the Dataset objects of a program,
    /repo/sofar/sofastream.py:67-84 *)
Record session := Session { se_streams : list stream; se_data : list dataset }.

(** Exceptions: infinite recursion, because [self._file] calls
    [__getattr__], which uses [self._file]; operations on a closed file
    (RuntimeError "NetCDF: Not a valid ID", or ValueError if get_dimension is
    asked for an unknown dimension); others.
    /repo/sofar/sofastream.py:84, 92 *)
Inductive failure := FRecursion | FClosed | FName | FOther (e : exn).

(** replace an element, /repo/sofar/sofastream.py:69, 76, 84 *)
Fixpoint set_at {A} (n : nat) (x : A) (l : list A) : list A :=
  match l, n with
  | [], _ => []
  | _ :: t, 0 => x :: t
  | y :: t, S n => y :: set_at n x t
  end.

(** /repo/sofar/sofastream.py:67-69 [__init__] *)
Definition new_stream (name : string) (e : session) : session :=
  Session (se_streams e ++ [Stream name None]) (se_data e).

(** /repo/sofar/sofastream.py:71-77 [__enter__] *)
Definition enter (s : fs) (i : nat) (e : session) : session * option failure :=
  match nth_error (se_streams e) i with
  | None => (e, Some FName)
  | Some t =>
      match stream_open s (st_name t) with
      | Err x => (e, Some (FOther x))
      | Ok f => (Session (set_at i (Stream (st_name t) (Some (List.length (se_data e)))) (se_streams e))
                         (se_data e ++ [Dataset f true]), None)
      end
  end.

(** [self._file] of a stream, if it is open,
    /repo/sofar/sofastream.py:84, 92, 212, 244 *)
Definition file_of_stream (i : nat) (e : session) : nat * ncfile + failure :=
  match nth_error (se_streams e) i with
  | None => inr FName
  | Some t =>
      match st_file t with
      | None => inr FRecursion
      | Some h =>
          match nth_error (se_data e) h with
          | Some d => if ds_open d then inl (h, ds_content d) else inr FClosed
          | None => inr FClosed
          end
      end
  end.

(** /repo/sofar/sofastream.py:79-84 [__exit__] *)
Definition leave (i : nat) (e : session) : session * option failure :=
  match file_of_stream i e with
  | inl (h, f) => (Session (se_streams e) (set_at h (Dataset f false) (se_data e)), None)
  | inr x => (e, Some x)
  end.

(** accesses to data, /repo/sofar/sofastream.py:86-301 *)
Inductive access :=
| AGet (name : string) | ADimension (d : string) | AList | AInspect.

(** what they return or print, /repo/sofar/sofastream.py:86-301 *)
Inductive answer :=
| RItem (x : stream_item) | RSize (n : nat) | RText (t : string).

(** /repo/sofar/sofastream.py:86-301 on an open file *)
Definition answer_of (E : env) (f : ncfile) (a : access) : res answer :=
  match a with
  | AGet name => let? x := stream_get f name in Ok (RItem x)
  | ADimension d => let? n := stream_get_dimension f d in Ok (RSize n)
  | AList => let? t := stream_list_dimensions f in Ok (RText t)
  | AInspect => let? t := stream_inspect E f in Ok (RText t)
  end.

(** Python programs that use streams: [PWith i p] is [with stream_i: p], [PTry p q]
    is [try: p except: q]. /repo/sofar/sofastream.py:14-65 *)
Inductive prog :=
| PSkip
| PSeq (p q : prog)
| PNew (name : string)
| PAccess (i : nat) (a : access)
| PRaise
| PTry (p q : prog)
| PWith (i : nat) (p : prog).

(** state, answers in order, exception.
    [with]: [__exit__] is called also if the block raises; its own exception
    replaces the one of the block. /repo/sofar/sofastream.py:71-84 *)
Fixpoint exec (E : env) (s : fs) (p : prog) (e : session)
  : session * list (nat * access * answer) * option failure :=
  match p with
  | PSkip => (e, [], None)
  | PSeq p q =>
      match exec E s p e with
      | (e1, t1, None) => let '(e2, t2, r) := exec E s q e1 in (e2, t1 ++ t2, r)
      | r => r
      end
  | PNew name => (new_stream name e, [], None)
  | PAccess i a =>
      match file_of_stream i e with
      | inr x => (e, [], Some x)
      | inl (_, f) => match answer_of E f a with
                      | Ok r => (e, [(i, a, r)], None)
                      | Err x => (e, [], Some (FOther x))
                      end
      end
  | PRaise => (e, [], Some (FOther (Exn EValueError "raised by the program")))
  | PTry p q =>
      match exec E s p e with
      | (e1, t1, Some _) => let '(e2, t2, r) := exec E s q e1 in (e2, t1 ++ t2, r)
      | r => r
      end
  | PWith i p =>
      match enter s i e with
      | (e1, Some x) => (e1, [], Some x)
      | (e1, None) =>
          let '(e2, t, r) := exec E s p e1 in
          match leave i e2 with
          | (e3, Some x) => (e3, t, Some x)
          | (e3, None) => (e3, t, r)
          end
      end
  end.
