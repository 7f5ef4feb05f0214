(** The argument file of Sofa.inspect and SofaStream.inspect: the text is also
    saved as a text file. *)
From Verif Require Import Base PyStr PyNum NdArray Sofa Verify Io Stream.
Open Scope string_scope.
Open Scope list_scope.
Open Scope nat_scope.

(** text files: their content, the names that can be opened for writing, and the
    texts that the encoding of the platform can express. Simplification: line ends
    are those of POSIX systems.
    /repo/sofar/sofa.py:486-489, /repo/sofar/sofastream.py:294-297 *)
Record texts := Texts { t_files : dict string; t_writable : string -> bool; t_encodable : string -> bool }.

(** [with open(file, 'w') as f_id: f_id.write(text)]: the file is created or
    emptied before the text is encoded,
    /repo/sofar/sofa.py:487-489, /repo/sofar/sofastream.py:295-297 *)
Definition save_text (file : string) (text : string) (t : texts) : texts * res unit :=
  if t_writable t file then
    if t_encodable t text
    then (Texts (dset file text (t_files t)) (t_writable t) (t_encodable t), Ok tt)
    else (Texts (dset file "" (t_files t)) (t_writable t) (t_encodable t), Err (Exn EUnicodeError text))
  else (t, Err (Exn EOSError file)).

(** [if file is not None: ...],
    /repo/sofar/sofa.py:486-489, /repo/sofar/sofastream.py:294-297 *)
Definition save_if (file : option string) (text : string) (t : texts) : texts * res unit :=
  match file with
  | Some file => save_text file (text +++ nl) t
  | None => (t, Ok tt)
  end.

(** the text, /repo/sofar/sofa.py:440-484 *)
Definition inspect_text (E : env) (h : handling) : M string :=
  do_ verify E h VWrite;
  do o <- get;
  do hd <- lift (header E o);
  do txt <- lift (rconcat (inspect_entry E o) (pub o));
  ret (hd +++ sconcat (fun _ => "-") (chars hd) +++ nl +++ txt).

(** [Sofa.inspect(file, issue_handling)], /repo/sofar/sofa.py:409-492 *)
Definition inspect_to (E : env) (h : handling) (file : option string) (o : sofa) (t : texts)
  : texts * (sofa * list event * res unit) :=
  match inspect_text E h o with
  | (o', ev, Err e) => (t, (o', ev, Err e))
  | (o', ev, Ok text) =>
      match save_if file text t with
      | (t', Err e) => (t', (o', ev, Err e))
      | (t', Ok _) => (t', (o', ev ++ [EvPrint text], Ok tt))
      end
  end.

(** [SofaStream.inspect(file)] for the content [f] of the open file,
    /repo/sofar/sofastream.py:225-300 *)
Definition stream_inspect_to (E : env) (f : ncfile) (file : option string) (t : texts)
  : texts * (list event * res unit) :=
  match stream_inspect E f with
  | Err e => (t, ([], Err e))
  | Ok text =>
      match save_if file text t with
      | (t', Err e) => (t', ([], Err e))
      | (t', Ok _) => (t', ([EvPrint text], Ok tt))
      end
  end.
