(* C54: what a rule gets of its arguments on the command line. *)
From Verif Require Import Base Utils UtilsProofs Trie TrieProofs Filename BlogcCmd MainSpec Rules RulesSpec P_Main P_Rules.
#[local] Arguments B : simpl never.

Lemma cut_name a s : ~ In ":"%char a -> cut ":"%char (a ++ B ":" ++ s) = Some (a, s).
Proof.
  intro H. induction a as [|x a IH]; [reflexivity|]. cbn [app cut].
  destruct (x == ":"%char) eqn:E; [apply eqb_true in E; subst; exfalso; apply H; left; reflexivity|].
  rewrite IH; [reflexivity|]. intro I. apply H. right. exact I.
Qed.
Lemma cut_none a : ~ In ":"%char a -> cut ":"%char a = None.
Proof.
  intro H. induction a as [|x a IH]; [reflexivity|]. cbn [cut].
  destruct (x == ":"%char) eqn:E; [apply eqb_true in E; subst; exfalso; apply H; left; reflexivity|].
  rewrite IH; [reflexivity|]. intro I. apply H. right. exact I.
Qed.

(* "runserver:host=a,port=b" is the rule runserver, with that table; arguments that cannot be read are ignored *)
Theorem C54_executed : forall (W : Type) stat command cp rm helper (c : ctx) (name s : bytes) (w : W),
  In name [B "runserver"; B "watch"; B "atom_dump"] ->
  (exists a, @executor W stat command cp rm helper c [name ++ B ":" ++ s] 0 w
      = (fst (helper name c a w), Ok (snd (helper name c a w))) /\
    (forall l, no_nul s -> arguments s l -> exists t, a = Some t /\ forall n, no_nul n -> trie_lookup t n = last_def n l) /\
    ((forall l, ~ arguments s l) -> a = None)) /\
  @executor W stat command cp rm helper c [name] 0 w = (fst (helper name c None w), Ok (snd (helper name c None w))).
Proof.
  intros W stat command cp rm helper c name s w H.
  assert (N : ~ In ":"%char name).
  { repeat (destruct H as [<-|H]); [..|destruct H]; intro X; repeat (destruct X as [X|X]; [discriminate|]); exact X. }
  assert (F : find_rule stat command cp rm helper name = Some (fun c a w => let (w, rv) := helper name c a w in (w, Ok rv))).
  { repeat (destruct H as [<-|H]); [..|destruct H]; reflexivity. }
  split.
  - exists (parse_rule_args (B ":" ++ s)). split; [|split].
    + cbn [executor]. unfold split_rule. rewrite (cut_name s N), F. cbv beta iota zeta.
      destruct (helper name c (parse_rule_args (B ":" ++ s)) w) as [w' [|n]]; reflexivity.
    + intros l Hs Hl. destruct (@C54_mapping s l [] Hs ltac:(intros []) Hl) as (t & E & _). exists t. split; [exact E|].
      intros n Hn. destruct (@C54_mapping s l n Hs Hn Hl) as (t' & E' & V). rewrite E in E'. injection E' as <-. exact V.
    + intro Hl. destruct (parse_rule_args (B ":" ++ s)) as [t|] eqn:E; [|reflexivity]. apply C54_arguments in E. destruct E as (l & A & _).
      exfalso. exact (Hl l A).
  - cbn [executor]. unfold split_rule. rewrite (cut_none N), F. cbv beta iota zeta. destruct (helper name c None w) as [w' [|n]]; reflexivity.
Qed.
Print Assumptions C54_executed.

Example C54_executed_example : arguments (B "host=::1,port=80") [(B "host", B "::1"); (B "port", B "80")].
Proof.
  change (B "host=::1,port=80") with (B "host" ++ B "=" ++ B "::1" ++ B "," ++ (B "port" ++ B "=" ++ B "80")).
  constructor; [| |constructor]; intro X; repeat (destruct X as [X|X]; [discriminate|]); exact X.
Qed.
