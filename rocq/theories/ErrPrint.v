(* Model of the text of an error and of what is printed of it, src/common/error.c. *)
From Verif Require Import Base Utils ErrorPos Content.

(* error.h 9-27 *)
Inductive ekind : Type :=
| EConfigParser | EFile | ESource | ETemplate | ELoader | EDatetime | ESettings | EExec | EAtom | EUtils.

(* error.c 89-96: bc_error_new of the message alone or with the position. The
   numbers are size_t printed with %d: exact below 2^31 on the machines in use,
   not defined by the C standard; taken as printed exactly. *)
Definition error_msg (msg src : bytes) (current : nat) : bytes :=
  match error_near src current with
  | None => msg
  | Some (lineno, pos, line) =>
      msg ++ [LF] ++ B "Error occurred near line " ++ dec (N.of_nat lineno) ++ B ", position " ++
      dec (N.of_nat pos) ++ B ": " ++ line
  end.

(* error.c 113-146; the default of the switch is left out, as there is no type without a case *)
Definition kind_label (k : ekind) : bytes :=
  match k with
  | EConfigParser => B "error: config-parser: "
  | EFile => B "error: file: "
  | ESource => B "error: source: "
  | ETemplate => B "error: template: "
  | ELoader => B "error: loader: "
  | EDatetime => B "warning: datetime: "
  | ESettings => B "error: settings: "
  | EExec => B "error: exec: "
  | EAtom => B "error: atom: "
  | EUtils => B "error: utils: "
  end.

(* bc_error_print, error.c 104-147: what is written to stderr *)
Definition error_print (err : option (ekind * bytes)) (prefix : option bytes) : bytes :=
  match err with
  | None => []                                                              (* 107-108 *)
  | Some (k, msg) =>
      match prefix with Some p => p ++ B ": " | None => [] end ++           (* 110-111 *)
      kind_label k ++ msg ++ [LF]
  end.
