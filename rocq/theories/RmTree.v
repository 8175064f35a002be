(* Model of rmdir_recursive, src/blogc-git-receiver/pre-receive.c 33-84, on a file system
   with symbolic links. Paths are lists of names from the root directory; the target of a
   link is such a path (in the code they are strings, and targets may be relative). *)
From Verif Require Import Base.
#[local] Open Scope nat_scope.

Definition path : Type := list bytes.
Inductive entry : Type := EFile | EDir | ELink (target : path).
(* every file but the root directory, in the order readdir gives them *)
Definition files : Type := list (path * entry).

Fixpoint path_eqb (p q : path) : bool :=
  match p, q with
  | [], [] => true
  | a :: p, b :: q => beq a b && path_eqb p q
  | _, _ => false
  end.
(* the file at a path, no link being followed *)
Definition at_ (fs : files) (p : path) : option entry :=
  match p with
  | [] => Some EDir
  | _ => match find (fun x => path_eqb (fst x) p) fs with Some x => Some (snd x) | None => None end
  end.
Definition gone (fs : files) (p : path) : files := filter (fun x => negb (path_eqb (fst x) p)) fs.
(* the names in a directory, readdir without "." and ".." (54-55) *)
Fixpoint name_in (d p : path) : option bytes :=
  match d, p with
  | [], [n] => Some n
  | a :: d, b :: p => if beq a b then name_in d p else None
  | _, _ => None
  end.
Definition names (fs : files) (d : path) : list bytes :=
  flat_map (fun x => match name_in d (fst x) with Some n => [n] | None => [] end) fs.

Section Calls.
Variable limit : nat.                    (* how many links are followed before ELOOP *)
Variable can : path -> bool.             (* the process may open, or remove, this file *)

(* the file that a path leads to when all links are followed *)
Fixpoint real (fs : files) (links : nat) : path -> path -> option path :=
  fix go (done todo : path) : option path :=
    match todo with
    | [] => Some done
    | n :: r =>
        match at_ fs (done ++ [n]) with
        | None => None
        | Some (ELink t) => match links with 0 => None | S l => real fs l [] (t ++ r) end
        | Some EDir => go (done ++ [n]) r
        | Some EFile => match r with [] => Some (done ++ [n]) | _ => None end
        end
    end.
(* stat(2): what the path leads to, and where *)
Definition stat (fs : files) (p : path) : option (path * entry) :=
  match real fs limit [] p with
  | Some q => match at_ fs q with Some e => Some (q, e) | None => None end
  | None => None
  end.
(* unlink(2) and rmdir(2): links before the last name are followed; None is an error *)
Definition last_name (fs : files) (p : path) : option path :=
  match rev p with
  | [] => None
  | n :: r => match real fs limit [] (rev r) with Some q => Some (q ++ [n]) | None => None end
  end.
Definition unlink (fs : files) (p : path) : option files :=
  match last_name fs p with
  | Some q => match at_ fs q with
              | Some EFile | Some (ELink _) => if can q then Some (gone fs q) else None
              | _ => None
              end
  | None => None
  end.
Definition rmdir (fs : files) (p : path) : option files :=
  match last_name fs p with
  | Some q => match at_ fs q, names fs q with
              | Some EDir, [] => if can q then Some (gone fs q) else None
              | _, _ => None
              end
  | None => None
  end.

(* rmdir_recursive returns, ends the process with status 2, or (never, see C80_ends) is
   nested too deeply *)
Inductive outcome : Type := Returns | Exit2 | TooDeep.
(* the loop over the names, 53-73; closedir does not fail *)
Fixpoint remove_all (recur : files -> path -> files * outcome) (p : path) (l : list bytes) (fs : files) : files * outcome :=
  match l with
  | [] => (fs, Returns)
  | n :: r =>
      match stat fs (p ++ [n]) with
      | None => (fs, Exit2)
      | Some (_, EDir) =>
          match recur fs (p ++ [n]) with
          | (fs, Returns) => remove_all recur p r fs
          | x => x
          end
      | Some _ => match unlink fs (p ++ [n]) with
                  | Some fs => remove_all recur p r fs
                  | None => (fs, Exit2)
                  end
      end
  end.
Fixpoint rmdir_recursive (depth : nat) (fs : files) (p : path) : files * outcome :=
  match depth with
  | 0 => (fs, TooDeep)
  | S depth =>
      match stat fs p with
      | None => (fs, Returns)
      | Some (q, EDir) =>
          if negb (can q) then (fs, Exit2)
          else match remove_all (rmdir_recursive depth) p (names fs q) fs with
               | (fs, Returns) => match rmdir fs p with Some fs => (fs, Returns) | None => (fs, Exit2) end
               | x => x
               end
      | Some _ => (fs, Exit2)
      end
  end.
End Calls.
