(* Model of src/blogc-runserver/main.c: the command line. What is printed is not modelled. *)
From Coq Require Import ZArith.
From Verif Require Import Base Loader.
#[local] Open Scope nat_scope.

(* the variables of main, 56-69; None is NULL *)
Record sopts : Type := SOpts { s_host : option bytes; s_port : option bytes; s_docroot : option bytes; s_threads : Z }.

(* how main ends: with a status before the server is started, or with that of
   br_httpd_run (host, port, docroot, max_threads) *)
Inductive start : Type := Exit (rv : nat) | Serve (host port docroot : bytes) (threads : Z).

(* the loop over the arguments, 71-121. argv[argc] is NULL: bc_strdup of it is NULL,
   strtoul of it is undefined. argv[i][1] of a string of one byte is its terminator.
   The warning of 98-100 is not modelled. *)
Fixpoint serve_args (args : list bytes) (o : sopts) : res (sopts + nat) :=
  match args with
  | [] => Ok (Datatypes.inl o)
  | a :: r =>
      match a with
      | "-"%char :: a' =>
          let c := match a' with c :: _ => c | [] => NUL end in
          if (c == "h"%char) || (c == "v"%char) then Ok (Datatypes.inr 0)
          else if c == "t"%char then
            match tl a' with
            | [] => match r with
                    | v :: r' => serve_args r' (SOpts (Some v) (s_port o) (s_docroot o) (s_threads o))
                    | [] => Ok (Datatypes.inl (SOpts None (s_port o) (s_docroot o) (s_threads o)))
                    end
            | v => serve_args r (SOpts (Some v) (s_port o) (s_docroot o) (s_threads o))
            end
          else if c == "p"%char then
            match tl a' with
            | [] => match r with
                    | v :: r' => serve_args r' (SOpts (s_host o) (Some v) (s_docroot o) (s_threads o))
                    | [] => Ok (Datatypes.inl (SOpts (s_host o) None (s_docroot o) (s_threads o)))
                    end
            | v => serve_args r (SOpts (s_host o) (Some v) (s_docroot o) (s_threads o))
            end
          else if c == "m"%char then
            match tl a' with
            | [] => match r with
                    | v :: r' => serve_args r' (SOpts (s_host o) (s_port o) (s_docroot o) (strtoul v))
                    | [] => UB
                    end
            | v => serve_args r (SOpts (s_host o) (s_port o) (s_docroot o) (strtoul v))
            end
          else Ok (Datatypes.inr 1)
      | _ => match s_docroot o with
             | Some _ => Ok (Datatypes.inr 1)
             | None => serve_args r (SOpts (s_host o) (s_port o) (Some a) (s_threads o))
             end
      end
  end.

Definition or_else (v d : option bytes) (c : bytes) : bytes :=
  match v with Some v => v | None => match d with Some d => d | None => c end end.

(* main, 47-152; [host] and [port] are BLOGC_RUNSERVER_DEFAULT_HOST and _PORT *)
Definition runserver_main (host port : option bytes) (args : list bytes) : res start :=
  do r <- serve_args args (SOpts None None None 20%Z) ;
  match r with
  | Datatypes.inr rv => Ok (Exit rv)
  | Datatypes.inl o =>
      match s_docroot o with
      | None => Ok (Exit 1)
      | Some d => if (s_threads o <=? 0)%Z || (1000 <? s_threads o)%Z then Ok (Exit 1)
                  else Ok (Serve (or_else (s_host o) host (B "127.0.0.1")) (or_else (s_port o) port (B "8080")) d (s_threads o))
      end
  end.
