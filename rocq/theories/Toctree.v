(* Model of src/blogc/toctree.c. *)
From Verif Require Import Base.

(* blogc_toctree_header_t, toctree.h; None is NULL *)
Record header : Type := Header { h_level : nat; h_slug : option bytes; h_text : option bytes }.

(* blogc_toctree_append, 8-20 *)
Definition toctree_append (headers : list header) (level : nat) (slug text : option bytes) : list header :=
  if Nat.eqb level 0 then headers else headers ++ [Header level slug text].

(* 30-36 *)
Fixpoint lower_level (low : nat) (headers : list header) : nat :=
  match headers with
  | [] => low
  | h :: r => lower_level (if Nat.eqb low 0 || Nat.ltb (h_level h) low then h_level h else low) r
  end.

(* endl == NULL ? "\n" : endl *)
Definition toc_endl (endl : option bytes) : bytes := match endl with None => [LF] | Some e => e end.
(* "%*s" with "": that many spaces (the size_t is passed for an int: the width
   is taken as it is, levels are far below INT_MAX / 4) *)
Definition spaces (n : nat) : bytes := repeat SP n.

(* 50-55 and 75-80: closing while current_level > level; the result is the text,
   current_level and spacing. A spacing below 4 would wrap around. *)
Fixpoint toc_close (n : nat) (e : bytes) (cur sp : nat) : res (bytes * nat * nat) :=
  match n with
  | 0 => Ok ([], cur, sp)
  | S n =>
      if Nat.ltb sp 4 || Nat.eqb cur 0 then UB
      else do (t, cur', sp') <- toc_close n e (cur - 1) (sp - 4) ;
           Ok (spaces (sp - 4) ++ B "</ul>" ++ e ++ t, cur', sp')
  end.
(* 56-61 *)
Fixpoint toc_open (n : nat) (e : bytes) (cur sp : nat) : bytes * nat * nat :=
  match n with
  | 0 => ([], cur, sp)
  | S n => let '(t, cur', sp') := toc_open n e (cur + 1) (sp + 4) in
           (spaces sp ++ B "<ul>" ++ e ++ t, cur', sp')
  end.

(* 62-70; text NULL and slug NULL appends nothing *)
Definition toc_item (e : bytes) (h : header) (sp : nat) : bytes :=
  let text := match h_text h with Some t => t | None => [] end in
  spaces sp ++ B "<li>" ++
  (match h_slug h with
   | Some s => B "<a href=""#" ++ s ++ B """>" ++ text ++ B "</a>"
   | None => text
   end) ++ B "</li>" ++ e.

(* t->level - lower_level >= maxdepth: the int is converted to size_t *)
Definition too_deep (low : nat) (maxdepth : Z) (h : header) : bool :=
  (maxdepth mod 2 ^ 64 <=? Z.of_nat (h_level h - low))%Z.

(* 45-71 *)
Fixpoint toc_loop (e : bytes) (low : nat) (maxdepth : Z) (headers : list header) (cur sp : nat)
  : res (bytes * nat * nat) :=
  match headers with
  | [] => Ok ([], cur, sp)
  | h :: r =>
      if too_deep low maxdepth h then toc_loop e low maxdepth r cur sp
      else
        do (t1, cur1, sp1) <- toc_close (cur - h_level h) e cur sp ;
        let '(t2, cur2, sp2) := toc_open (h_level h - cur1) e cur1 sp1 in
        do (t3, cur3, sp3) <- toc_loop e low maxdepth r cur2 sp2 ;
        Ok (t1 ++ t2 ++ toc_item e h sp2 ++ t3, cur3, sp3)
  end.

(* blogc_toctree_render, 23-83; Ok None is NULL *)
Definition toctree_render (headers : list header) (maxdepth : Z) (endl : option bytes) : res (option bytes) :=
  match headers with
  | [] => Ok None
  | _ =>
      if (maxdepth =? 0)%Z then Ok None
      else
        let low := lower_level 0 headers in
        if Nat.eqb low 0 then Ok None
        else
          let e := toc_endl endl in
          do (t, cur, sp) <- toc_loop e low maxdepth headers low 4 ;
          do (t', _, _) <- toc_close (cur + 1 - low) e cur sp ;
          Ok (Some (B "<ul>" ++ e ++ t ++ t'))
  end.
