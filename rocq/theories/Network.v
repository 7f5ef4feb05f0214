(** Requests of /repo/sofar/update_conventions.py:53-189 to the server: pages with
    links and files, each of which may fail or be answered with an error.

    The answer to a request may depend on its number, i.e., the server can do
    anything between two requests. Parsing HTML (BeautifulSoup) is a parameter
    that gives the targets of all links ([None]: [<a>] without [href]). *)
From Verif Require Import Base PyStr PyNum NdArray Sofa UpdateConv.
Open Scope string_scope.
Open Scope list_scope.
Open Scope nat_scope.

(** [requests.get]: status and text, or an exception (ConnectionError, Timeout).
    /repo/sofar/update_conventions.py:61, 66, 109 *)
Inductive reply := Answer (status : nat) (body : string) | NoAnswer.

(** page of the standardized ([true]) or deprecated conventions, files.
    /repo/sofar/update_conventions.py:61, 66, 109 *)
Inductive request := RPage (std : bool) | RFile (std : bool) (c : string).

(** answer to request number n, /repo/sofar/update_conventions.py:61, 66, 109 *)
Definition web := nat -> request -> reply.

(** ConnectionError is an OSError, /repo/sofar/update_conventions.py:61, 66, 109 *)
Definition no_connection : exn := Exn EOSError "connection failed".

(** [os.path.split(node.get('href'))[1] ... if node.get('href').endswith('csv')],
    /repo/sofar/update_conventions.py:63-65, 68-70 *)
Fixpoint csv_links (l : list (option string)) : res (list string) :=
  match l with
  | [] => Ok []
  | None :: _ => Err (Exn EAttributeError "'NoneType' object has no attribute 'endswith'")
  | Some h :: t =>
      let? r := csv_links t in
      if endswith "csv" h then Ok (after_last "/" h :: r) else Ok r
  end.

(** the status is not checked, /repo/sofar/update_conventions.py:61-65, 66-70 *)
Definition get_page (parse : string -> list (option string)) (x : reply) : res (list string) :=
  match x with
  | NoAnswer => Err no_connection
  | Answer _ body => csv_links (parse body)
  end.

(** the loop with its requests, /repo/sofar/update_conventions.py:91-161;
    [n] is the number of the next request *)
Fixpoint download (W : web) (std dep : list string) (d : cdir) (n : nat) (l : list string) (p : plan)
  : plan * res unit * list (request * reply) :=
  match l with
  | [] => (p, Ok tt, [])
  | c :: t =>
      if excluded c then download W std dep d n t p
      else
        let rq := RFile (smem c std) c in
        match W n rq with
        | NoAnswer => (p, Err no_connection, [(rq, NoAnswer)])
        | Answer st body =>
            let p1 := consider (Server std dep (fun _ _ => body)) d p c in
            let '(p2, r, log) := download W std dep d (S n) t p1 in
            (p2, r, (rq, Answer st body) :: log)
        end
  end.

(** [update_conventions], /repo/sofar/update_conventions.py:53-189. [response] is
    what the user types, [None] if there is no input (EOFError). Also returns
    the requests and their answers. *)
Definition update_online (F : flt_env) (parse : string -> list (option string)) (W : web)
  (assume_yes : bool) (response : option string) (d : cdir)
  : cdir * list event * res unit * list (request * reply) :=
  let ev := [EvPrint msg_reading] in
  let a1 := W 0 (RPage true) in
  let log1 := [(RPage true, a1)] in
  match get_page parse a1 with
  | Err e => (d, ev, Err e, log1)
  | Ok std =>
      let a2 := W 1 (RPage false) in
      let log2 := log1 ++ [(RPage false, a2)] in
      match get_page parse a2 with
      | Err e => (d, ev, Err e, log2)
      | Ok dep =>
          let '(p, r, log) := download W std dep d 2 (std ++ dep) (Plan false [] [] [] []) in
          match r with
          | Err e => (d, ev ++ p_events p, Err e, log2 ++ log)
          | Ok _ =>
              match response with
              | Some t => (carry_out F p assume_yes t d, log2 ++ log)
              | None =>
                  if p_updated p && negb assume_yes
                  then (d, ev ++ p_events p ++ [EvPrint msg_ask], Err (Exn EOSError "EOF when reading a line"), log2 ++ log)
                  else (carry_out F p assume_yes "" d, log2 ++ log)
              end
          end
      end
  end.
