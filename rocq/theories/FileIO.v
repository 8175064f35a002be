(* Model of src/common/file.c and src/common/stdin.c. The operating system is
   an explicit stream: the bytes still to come, the sizes in which read(2)
   hands them over (any size of at least one byte; when the list is exhausted,
   one byte at a time), and whether the stream ends with an I/O error instead
   of end of file. fopen failure is not modelled (it returns an error at once). *)
From Verif Require Import Base Utf8.

Record stream : Type := Stream
  { pending : bytes; sizes : list nat; broken : bool; eof : bool }.

(* fread(buffer, 1, n, fp) by its C standard contract: read(2) is repeated until
   n bytes arrived, or end of file (sets the eof flag), or an error (does not).
   One step consumes at least one byte, so [n] bounds the recursion. *)
Fixpoint fread (n : nat) (want : nat) (acc : bytes) (s : stream) : bytes * stream :=
  match n with
  | 0 => (acc, s)
  | S n' =>
      if Nat.eqb want 0 then (acc, s)
      else match pending s with
           | [] => (acc, if broken s then s else Stream [] (sizes s) false true)
           | _ =>
               let k := Nat.min want (Nat.min (length (pending s))
                          (Nat.max 1 (hd 1 (sizes s)))) in
               fread n' (want - k) (acc ++ firstn k (pending s))
                 (Stream (skipn k (pending s)) (tl (sizes s)) (broken s) (eof s))
           end
  end.

(* while (!feof(fp)) { ... }, file.c 37-53. [str] is the string builder content
   (see StrBuf.v), str->len its length; [chunk] is BC_FILE_CHUNK_SIZE. *)
Fixpoint read_loop (fuel : nat) (chunk : nat) (utf8 : bool) (str : bytes) (s : stream)
  : res bytes :=
  match fuel with
  | 0 => OutOfFuel
  | S fuel =>
      if eof s then Ok str
      else
        let '(buf, s') := fread (S chunk) chunk [] s in
        let skip := if utf8 && Nat.eqb (length str) 0 && Nat.ltb 0 (length buf)
                    then utf8_skip_bom buf else 0 in
        read_loop fuel chunk utf8 (str ++ skipn skip buf) s'
  end.

(* BC_FILE_CHUNK_SIZE, file.h 10 *)
Definition FILE_CHUNK : nat := 1024.

(* bc_file_get_contents, file.c 16-63, for a file that can be opened. The first
   component is the returned buffer (None: "not valid UTF-8" error); *len is its
   length. *)
Definition file_get_contents (fuel : nat) (utf8 : bool) (s : stream) : res (option bytes) :=
  do str <- read_loop fuel FILE_CHUNK utf8 [] s ;
  if utf8
  then do ok <- utf8_validate str ; Ok (if ok : bool then Some str else None)
  else Ok (Some str).

(* bc_stdin_read, stdin.c 11-23: fgetc until EOF (also returned on error) *)
Fixpoint stdin_loop (acc : bytes) (input : bytes) : bytes :=
  match input with
  | [] => acc
  | c :: r => stdin_loop (acc ++ [c]) r
  end.
Definition stdin_read (input : bytes) : bytes := stdin_loop [] input.

(* a freshly opened file *)
Definition opened (content : bytes) (sz : list nat) (bad : bool) : stream :=
  Stream content sz bad false.
