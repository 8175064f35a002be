(* Model of src/blogc-make/main.c, built without MAKE_EMBEDDED. The texts that are printed
   are not modelled, only which of them are. *)
From Verif Require Import Base Utils Trie Settings BlogcCmd Rules Ctx.
From Coq Require Import ZArith.
#[local] Open Scope nat_scope.

(* the variables of main, 61-68; verbose is only read when commands are printed *)
Record mopts : Type := MOpts { m_dev : bool; m_verbose : bool; m_file : option bytes; m_rules : list bytes }.
(* what main prints itself *)
Inductive said : Type := Said_nothing | Said_help | Said_version | Said_usage | Said_error.

(* the loop over the arguments, 70-107; argv[i][1] of a string of one byte is its
   terminator. Overwriting blogcfile by a second -f leaks the first. *)
Fixpoint make_args (args : list bytes) (o : mopts) : mopts + said :=
  match args with
  | [] => inl o
  | a :: r =>
      match a with
      | "-"%char :: a' =>
          let c := match a' with c :: _ => c | [] => NUL end in
          if c == "h"%char then inr Said_help
          else if c == "v"%char then inr Said_version
          else if c == "D"%char then make_args r (MOpts true (m_verbose o) (m_file o) (m_rules o))
          else if c == "V"%char then make_args r (MOpts (m_dev o) true (m_file o) (m_rules o))
          else if c == "f"%char then
            match tl a' with
            | [] =>
                match r with
                | v :: r' => make_args r' (MOpts (m_dev o) (m_verbose o) (Some v) (m_rules o))
                | [] => inl o
                end
            | v => make_args r (MOpts (m_dev o) (m_verbose o) (Some v) (m_rules o))
            end
          else inr Said_usage
      | _ => make_args r (MOpts (m_dev o) (m_verbose o) (m_file o) (m_rules o ++ [a]))
      end
  end.

Section Main.
Variable W : Type.
Variable stat : W -> bytes -> option (Z * Z).
Variable look_at : W -> bytes -> node.
Variable contents : W -> bytes -> option bytes.
Variable getcwd : W -> option bytes.
Variable mkstemp : W -> settings -> W * option bytes.
Variable unlink : W -> bytes -> W.
Variable getenv : bytes -> option bytes.
Variable access : bytes -> bool.
Variable command : W -> bytes -> bytes -> W * cmd_result.
Variable cp : W -> fctx -> fctx -> W * nat.
Variable rm : W -> bytes -> fctx -> W * nat.
Variable helper : bytes -> ctx -> option (trie bytes) -> W -> W * nat.

(* ctx->dev = dev, 120 *)
Definition set_dev (d : bool) (c : ctx) : ctx :=
  let e := c_exec c in
  Ctx (Ectx (e_blogc e) (e_runserver e) (e_settings e) (e_output_dir e) d) (c_root c) (c_short_output c) (c_main c) (c_atom c)
    (c_atom_tmp c) (c_settings c) (c_entry c) (c_posts c) (c_pages c) (c_copy c).

(* main, 52-141. The context that is freed at the end is the one the rules were started
   with: runserver and watch may have loaded another in its place. *)
Definition make_main (fuel : nat) (argv0 : option bytes) (args : list bytes) (w : W) : W * said * res nat :=
  match make_args args (MOpts false false None []) with
  | inr Said_usage => (w, Said_usage, Ok 1)
  | inr s => (w, s, Ok 0)
  | inl o =>
      let rules := match m_rules o with [] => [B "all"] | l => l end in
      let (w, r) := ctx_new stat look_at contents getcwd mkstemp unlink (getenv (B "OUTPUT_DIR")) fuel None
        (find_binary getenv access argv0 (B "blogc") (B "BLOGC"))
        (find_binary getenv access argv0 (B "blogc-runserver") (B "BLOGC_RUNSERVER"))
        w (match m_file o with Some f => f | None => B "blogcfile" end) in
      match r with
      | Ok None => (w, Said_error, Ok 1)
      | UB => (w, Said_nothing, UB)
      | OutOfFuel => (w, Said_nothing, OutOfFuel)
      | Ok (Some c) =>
          let c := set_dev (m_dev o) c in
          if str_to_bool (Some (look_str c (B "run_from_make"))) &&
             match getenv (B "MAKEFLAGS") with None => true | Some _ => false end
          then (free_internal unlink w c, Said_error, Ok 1)
          else
            let (w, x) := executor stat command cp rm helper c rules 0 w in
            match x with
            | Ok rv => (free_internal unlink w c, Said_nothing, Ok rv)
            | _ => (w, Said_nothing, x)
            end
      end
  end.
End Main.
