(* Model of src/blogc-make/exec-native.c: copying a file, and removing one together
   with the directories that are empty then. What is printed is not modelled. *)
From Verif Require Import Base Utils BlogcCmd Rules.
From Coq Require Import ZArith.
#[local] Open Scope nat_scope.

(* ---- bm_exec_native_cp, 22-84 ---- *)
(* what the kernel makes of one read(2) or write(2): an error, or at most so many
   bytes. A read of 0 bytes is the end of the file, and only that. *)
Inductive io : Type := Fail | Upto (n : nat).

(* the files, by inode, with their contents *)
Definition store : Type := nat -> bytes.
Definition put (s : store) (i : nat) (b : bytes) : store := fun j => if Nat.eqb j i then b else s j.

(* BC_FILE_CHUNK_SIZE, common/file.h *)
Definition chunk_size : nat := 1024.

(* the do loop of 67-79: [out_ptr] has the bytes still to be written. Writes not
   listed are complete. The offset of fd_to is the size of the file. *)
Fixpoint write_loop (dst : nat) (out_ptr : bytes) (ws : list io) (s : store) : store * list io * bool :=
  match ws with
  | [] => (put s dst (s dst ++ out_ptr), [], true)
  | Fail :: ws => (s, ws, false)                                                   (* 69-75 *)
  | Upto n :: ws =>
      let s := put s dst (s dst ++ firstn n out_ptr) in
      match skipn n out_ptr with [] => (s, ws, true) | rest => write_loop dst rest ws s end
  end.
(* the while loop of 65-80; [at_] is the offset of fd_from. Reads not listed give all
   that was asked for. *)
Fixpoint copy_loop (fuel : nat) (src dst at_ : nat) (rs ws : list io) (s : store) : res (store * nat) :=
  match fuel with
  | 0 => OutOfFuel
  | S fuel =>
      match rs with
      | Fail :: _ => Ok (s, 0)                                                     (* nread = -1 *)
      | _ =>
          let n := match rs with Upto n :: _ => Nat.min chunk_size (Nat.max 1 n) | _ => chunk_size end in
          match firstn n (skipn at_ (s src)) with
          | [] => Ok (s, 0)                                                        (* nread = 0 *)
          | b => match write_loop dst b ws s with
                 | (s, ws, true) => copy_loop fuel src dst (at_ + length b) (tl rs) ws s
                 | (s, _, false) => Ok (s, 1)
                 end
          end
      end
  end.

(* the directories tried, 30-46; false if one cannot be made *)
Section Mkdirs.
Variable mkdir : bytes -> bool.                              (* made, or EEXIST *)
Fixpoint cp_mkdirs (done rest : bytes) : list bytes * bool :=
  match rest with
  | [] => ([], true)
  | c :: r =>
      if negb (c == "/"%char) && negb (c == BSL) then cp_mkdirs (done ++ [c]) r
      else match done with
           | [] => cp_mkdirs (done ++ [c]) r
           | _ => if mkdir done then let (l, ok) := cp_mkdirs (done ++ [c]) r in (done :: l, ok) else ([done], false)
           end
  end.
End Mkdirs.
(* the whole function: [source] and [dest] are the inodes of the opened files, None if
   open fails. The results of close are ignored, 82-83. *)
Definition native_cp (fuel : nat) (mkdir : bytes -> bool) (path : bytes) (source dest : option nat) (rs ws : list io) (s : store)
  : list bytes * res (store * nat) :=
  let (dirs, ok) := cp_mkdirs mkdir [] path in
  (dirs,
   if negb ok then Ok (s, 1)
   else match source, dest with
        | None, _ => Ok (s, 1)                                                     (* 48-53 *)
        | Some _, None => Ok (s, 1)                                                (* 55-61 *)
        | Some i, Some j => copy_loop fuel i j 0 rs ws (put s j [])                (* O_TRUNC *)
        end).

(* ---- bm_exec_native_rm, 121-184 ---- *)
(* what opendir, readdir and closedir say: no such directory, another error, or the
   entries, and whether closedir works *)
Inductive listing : Type := Missing | Unreadable | Entries (l : list bytes) (closed : bool).

Section Rm.
Variable W : Type.
Variable unlink : W -> bytes -> W * bool.
Variable entries : W -> bytes -> listing.
Variable rmdir : W -> bytes -> W * bool.

(* bm_exec_native_is_empty_dir, 86-118: None is an error *)
Definition is_empty_dir (w : W) (d : bytes) : option bool :=
  match entries w d with
  | Missing => Some true
  | Unreadable => None
  | Entries l closed =>
      if closed then Some (negb (existsb (fun e => negb (beq e (B ".")) && negb (beq e (B ".."))) l)) else None
  end.
(* the loop, 145-178; short_dir gets shorter with every turn *)
Fixpoint rm_dirs (fuel : nat) (output_dir short_dir dir : bytes) (w : W) : W * res nat :=
  match fuel with
  | 0 => (w, OutOfFuel)
  | S fuel =>
      if beq short_dir (B ".") || beq short_dir (B "/") then (w, Ok 0)
      else match is_empty_dir w dir with
           | None => (w, Ok 1)
           | Some false => (w, Ok 0)
           | Some true =>
               let (w, ok) := rmdir w dir in
               if negb ok then (w, Ok 1)
               else if beq dir output_dir then (w, Ok 0)
               else rm_dirs fuel output_dir (dirname short_dir) (dirname dir) w
           end
  end.
Definition native_rm (w : W) (output_dir : bytes) (f : fctx) : W * res nat :=
  let (w, ok) := unlink w (f_path f) in
  if negb ok then (w, Ok 1)                                                        (* 130-134 *)
  else rm_dirs (S (length (f_short f))) output_dir (dirname (f_short f)) (dirname (f_path f)) w.
End Rm.
