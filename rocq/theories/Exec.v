(* The system calls of bm_exec_command, src/blogc-make/exec.c 76-208, when any of them can fail; what
   the two processes do at the same time is in Pipes.v. *)
From Verif Require Import Base Utils BlogcCmd.

(* the ends of the three pipes, [0] for reading and [1] for writing *)
Inductive fd : Type := In0 | In1 | Out0 | Out1 | Err0 | Err1.
Inductive call : Type :=
| EPipe (r w : fd) | EClose (d : fd) | EFork | EWrite (d : fd) (x : bytes) | ERead (d : fd) | EWait.

(* what the system answers: whether the calls succeed, and what each read gives (None: -1; what was
   not given or is empty: 0). Simplified: a write that succeeds writes everything, waitpid succeeds. *)
Record answers : Type := Answers
  { y_in : bool; y_out : bool; y_err : bool; y_fork : bool; y_write : bool;
    y_reads_out : list (option bytes); y_reads_err : list (option bytes); y_status : nat }.

(* the loops of 165-180 and 187-199: the calls, and None for a failed read or else what was read,
   NULL if that is nothing *)
Fixpoint read_all (d : fd) (acc : option bytes) (rs : list (option bytes)) : list call * option (option bytes) :=
  match rs with
  | [] => ([ERead d], Some acc)
  | None :: _ => ([ERead d], None)
  | Some [] :: _ => ([ERead d], Some acc)
  | Some x :: r =>
      let (tr, o) := read_all d (Some (match acc with Some a => a ++ x | None => x end)) r in (ERead d :: tr, o)
  end.

(* the calls of the parent, and the result; CmdError is 1 with *err set *)
Definition exec_command (y : answers) (input : option bytes) : list call * cmd_result :=
  if negb (y_in y) then ([], CmdError)                                                           (* 83-88 *)
  else if negb (y_out y) then ([EPipe In0 In1; EClose In0; EClose In1], CmdError)                (* 90-97 *)
  else if negb (y_err y) then
    ([EPipe In0 In1; EPipe Out0 Out1; EClose In0; EClose In1; EClose Out0; EClose Out1], CmdError)  (* 99-108 *)
  else
  let pipes := [EPipe In0 In1; EPipe Out0 Out1; EPipe Err0 Err1] in
  if negb (y_fork y) then                                                                        (* 110-121 *)
    (pipes ++ [EClose In0; EClose In1; EClose Out0; EClose Out1; EClose Err0; EClose Err1], CmdError)
  else
  let forked := pipes ++ [EFork; EClose In0; EClose Out1; EClose Err1] in                        (* 145-147 *)
  let written := match input with Some x => [EWrite In1 (cstr x)] | None => [] end in            (* 149-158 *)
  if (match input with Some _ => negb (y_write y) | None => false end) then
    (forked ++ written ++ [EClose In1; EClose Out0; EClose Err0], CmdError)
  else
  let (tr_out, out) := read_all Out0 None (y_reads_out y) in
  match out with
  | None => (forked ++ written ++ [EClose In1] ++ tr_out ++ [EClose Out0; EClose Err0], CmdError)
  | Some out =>
      let (tr_err, err) := read_all Err0 None (y_reads_err y) in
      match err with
      | None => (forked ++ written ++ [EClose In1] ++ tr_out ++ [EClose Out0] ++ tr_err ++ [EClose Err0], CmdError)
      | Some err =>
          (forked ++ written ++ [EClose In1] ++ tr_out ++ [EClose Out0] ++ tr_err ++ [EClose Err0; EWait],
           CmdDone (y_status y) out err)                                                         (* 204-207 *)
      end
  end.

(* bm_exec_blogc_get_variable, exec.c 401-419: what it writes to stderr about a failure; printing NULL
   is undefined, and bc_str_strip gives NULL for NULL. An error of bm_exec_command has its own message. *)
Definition get_variable_says (r : cmd_result) : res bytes :=
  match r with
  | CmdError => Ok []
  | CmdDone s _ err =>
      if Nat.eqb s 0 then Ok []
      else if negb (Nat.eqb s 78) then
        match err with Some e => Ok (B "blogc-make: error: " ++ strip (cstr e) ++ [LF]) | None => UB end
      else Ok []
  end.
