(* What the files of a built site hold. Of the models it uses the types, the recipes of
   BuildSpec, and what a page is of P_MainRun (C64). *)
From Verif Require Import Base Utf8Proofs Trie ShSpec Datetime Settings Source Renderer BlogcCmd Rules BuildSpec Main MainSpec P_Main P_MainRun.
From Verif Require P_BlogcCmd.
From Coq Require Import ZArith.
#[local] Open Scope nat_scope.

(* what the file [p], that held [old], holds after these effects *)
Fixpoint leaves (l : list effect) (p : bytes) (old : option bytes) : option bytes :=
  match l with
  | [] => old
  | EOpen f :: r => leaves r p (if beq f p then Some [] else old)
  | EWrite f t :: r => leaves r p (if beq f p then match old with Some b => Some (b ++ t) | None => None end else old)
  | _ :: r => leaves r p old
  end.

Section Spec.
Variable W : Type.
Variable stat : W -> bytes -> option (Z * Z).
Variable file : W -> bytes -> option bytes.              (* what a file holds; each path is another file *)
Variable text : bytes -> option bytes.                   (* what bc_file_get_contents makes of it, FileIO.v *)
Variable mktime : tm -> tm.
Variable strftime : option bytes -> bytes -> tm -> option bytes.   (* of a locale *)
Variable funcs : W -> list (bytes * (vars -> vars)).     (* funcvars.c: of the memory and time used *)
Variable sfuel rfuel : nat.
Variable mkdir fopen : W -> bytes -> bool.
Variable version : bytes.
Variable now : W -> Prop.                                (* the clock is where it was when the site was read, or later *)

Definition contents (w : W) (p : bytes) : option bytes := match file w p with Some b => text b | None => None end.
Definition words_of (locale : option bytes) : list bytes := match locale with Some l => [B "LC_ALL=" ++ l] | None => [] end.

(* running the program [bin]: it does what main.c does and exits, or it could not be
   started or died before it touched anything. The clock goes on: no file becomes older,
   and what was written is not older than the inputs. *)
Definition runs_blogc (c : ctx) (bin : bytes) (command : W -> bytes -> bytes -> W * cmd_result) : Prop :=
  forall w cmd input locale args, now w -> sh_words cmd = Some (words_of locale ++ bin :: args) ->
  let (w', r) := command w cmd input in
  now w' /\ later stat w w' /\
  ((exists l n out err,
     blogc_main (contents w) mktime (strftime locale) (funcs w) sfuel rfuel (mkdir w) (fopen w) (fun _ t => t) version args input = Ok (l, n)
     /\ r = CmdDone n out err /\ (forall p, file w' p = leaves l p (file w p))
     /\ (forall p, (forall e, In e l -> touched e <> Some p) -> stat w' p = stat w p)
     /\ forall p, In (EOpen p) l -> written stat c w' p)
  \/ ((forall p, file w' p = file w p) /\ (forall p, stat w' p = stat w p) /\ forall out err, r <> CmdDone 0 out err)).
(* copying: all of the file, or nothing *)
Definition copies (c : ctx) (cp : W -> fctx -> fctx -> W * nat) : Prop :=
  forall w s o, now w -> let (w', n) := cp w s o in
  now w' /\ later stat w w' /\
  (forall p, p <> f_path o -> file w' p = file w p) /\
  (forall p, p <> f_path o -> ~ parent p (f_path o) -> stat w' p = stat w p) /\
  (n = 0 -> file w' (f_path o) = file w (f_path s) /\ file w (f_path s) <> None /\ written stat c w' (f_path o)) /\
  (n <> 0 -> file w' (f_path o) = file w (f_path o) /\ stat w' (f_path o) = stat w (f_path o)).

(* the file [path] is what the recipe says: the page blogc renders from these sources, with
   this template, listing entry and variables, in the locale of the site, with the function
   variables of some moment; or the file that was to be copied *)
Definition made_by (c : ctx) (w : W) (path : bytes) (j : jrun) : Prop :=
  match j with
  | JCopy s => file w path = file w (f_path s) /\ file w path <> None
  | JBlogc gv lv listing entry template sources first =>
      exists o p page moment,
        meant version o (e_dev (c_exec c)) lv gv (c_st c) /\ o_listing o = listing /\ o_template o = Some (f_path template) /\ o_print o = None /\
        o_entries o = (if listing then map f_path (somes [entry]) else []) /\
        Forall2 (fun s x => exists f, s = Some f /\ x = f_path f) (if first then firstn 1 sources else sources) p /\
        page_of (contents w) mktime (strftime (look c (B "locale"))) (funcs moment) sfuel o p page /\
        file w path = Some page
  end.
(* a file of the site that holds what it should *)
Definition right (c : ctx) (answer : option bytes -> option bytes) (w : W) (path : bytes) : Prop :=
  exists rule n d j, product c answer rule n d /\ recipe c rule n j /\ absolute c n = path /\ made_by c w path j.
(* no file of the site is out of date without the times showing it *)
Definition honest (c : ctx) (answer : option bytes -> option bytes) (w : W) : Prop :=
  forall rule n d, product c answer rule n d -> up_to_date stat w (absolute c n) d -> right c answer w (absolute c n).

(* the site can be told apart from its output, and a file of the output from a directory of it *)
Record apart (c : ctx) (answer : option bytes -> option bytes) : Prop := Apart
  { ap_inputs : forall rule n d f, product c answer rule n d -> In f (inputs c) -> absolute c n <> f_path f;
    ap_folders : forall rule n d rule' n' d', product c answer rule n d -> product c answer rule' n' d' -> ~ parent (absolute c n) (absolute c n') }.
(* names a shell, a C string and a list of files can hold *)
Record nameable (c : ctx) (answer : option bytes -> option bytes) : Prop := Nameable
  { na_main : no_nul (f_path (c_main c)); na_atom : no_nul (f_path (c_atom c));
    na_entry : forall e, c_entry c = Some e -> no_nul (f_path e);
    na_sources : forall f, In (Some f) (c_posts c ++ c_pages c) -> P_BlogcCmd.line_path (f_path f);
    na_slugs : forall f s, In (Some f) (c_posts c ++ c_pages c) -> f_slug f = Some s -> no_nul s /\ utf8 s;
    na_out : forall rule n d, product c answer rule n d -> no_nul (absolute c n) /\ absolute c n <> B "-" }.
End Spec.
