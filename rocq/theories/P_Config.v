(* The configuration parser: properties C15-C17. *)
From Verif Require Import Base Utils Trie TrieProofs Config ConfigProofs ConfigSpec ConfigRun ConfigEof.

(* ---------- C15 ---------- *)
(* On every buffer the parser ends, without undefined behaviour and within its
   fuel, with either a configuration or an error; the error points into the
   buffer. *)
Theorem C15_config_total : forall (lists : list bytes) (src : bytes),
  exists r : config + cerror, config_parse lists src = Ok r
    /\ forall e, r = inr e -> ce_at e < length src.
Proof. exact config_total. Qed.
Print Assumptions C15_config_total.

Example C15_example :
  config_parse [B "posts"] (B "[a]" ++ [LF] ++ B "key") = Ok (inr (CErr (B "Key without value: key.") 6))
  /\ (exists cfg, config_parse [] (B "[a]" ++ [LF] ++ B "k=""\") = Ok (inl cfg)).
Proof. split; [vm_compute; reflexivity|eexists; vm_compute; reflexivity]. Qed.

(* ---------- C16 ---------- *)
Theorem C16_config_means : forall (lists : list bytes) (d : doc), doc_ok lists d -> exists cfg,
  config_parse lists (doc_text d) = Ok (inl cfg)
  /\ (NoDup (config_list_sections cfg)
      /\ forall n, In n (config_list_sections cfg) <-> In n (map fst (d_secs d)))
  /\ forall sec, no_nul sec ->
     match doc_section d sec with
     | None => config_list_keys cfg sec = None /\ config_get_list cfg sec = None
               /\ forall k, config_get cfg sec k = None
     | Some body =>
         (In sec lists -> config_get_list cfg sec = Some (items_of body)
            /\ config_list_keys cfg sec = None /\ forall k, config_get cfg sec k = None)
         /\ (~ In sec lists -> config_get_list cfg sec = None
            /\ (forall k, no_nul k -> config_get cfg sec k = last_value (keys_of body) k)
            /\ exists ks, config_list_keys cfg sec = Some ks /\ NoDup ks
                 /\ forall k, In k ks <-> In k (map fst (keys_of body)))
     end.
Proof. exact doc_means. Qed.
Print Assumptions C16_config_means.

(* Every NUL-free value can be given to any key: quoted, each byte escaped. *)
Theorem C16_every_value : forall (lists : list bytes) (sec k v : bytes),
  name_ok sec -> ~ In sec lists -> key_ok k [] -> no_nul v ->
  exists cfg,
    config_parse lists (["["%char] ++ sec ++ B "]" ++ [LF] ++ k ++ B "=" ++ [DQ]
                        ++ flat_map (fun c => [BSL; c]) v ++ [DQ; LF]) = Ok (inl cfg)
    /\ config_get cfg sec k = Some v.
Proof. exact quoted_any. Qed.
Print Assumptions C16_every_value.

(* [get_with_default] answers the value, or the default if there is none. *)
Theorem C16_get_with_default : forall (cfg : config) (sec k dflt : bytes),
  (forall v, config_get cfg sec k = Some v -> config_get_with_default cfg sec k dflt = v)
  /\ (config_get cfg sec k = None -> config_get_with_default cfg sec k dflt = dflt).
Proof. intros. unfold config_get_with_default. split; intros; rewrite H; reflexivity. Qed.
Print Assumptions C16_get_with_default.

(* a comment, a map section with a plain and a quoted value, a list section *)
Definition ex_doc : doc :=
  Doc [Remark "#"%char (B " global") LF; Blank [LF]]
      [(B "global", [Blank [LF];
          Key (B "a b") [SP] (Plain [SP] [Lit "x"%char; Esc "="%char; Lit SP; Lit "y"%char] [SP; TAB]) LF;
          Blank [SP];
          Key (B "c") [] (Quoted [] [Lit SP; Lit "q"%char; Esc DQ; Lit SP] []) CR; Blank [LF]]);
       (B "tags", [Blank [CR; LF]; Item (Plain [] (map Lit (B "foo")) []) LF;
                   Item (Quoted [FF] (map Lit (B "b r")) [SP]) LF])].

Lemma notin_b c l : existsb (Ascii.eqb c) l = false -> ~ In c l.
Proof.
  intros H Hi. rewrite <- not_true_iff_false in H. apply H. apply existsb_exists.
  exists c. split; [exact Hi|apply eqb_refl].
Qed.
Lemma in_b c l : existsb (Ascii.eqb c) l = true -> In c l.
Proof. intro H. apply existsb_exists in H. destruct H as (x & Hx & E). apply eqb_true in E. subst. exact Hx. Qed.
Ltac bytes_ok := repeat match goal with
  | |- _ /\ _ => split
  | |- skip_ok _ => unfold skip_ok, over
  | |- over _ _ => unfold over
  | |- Forall _ ?l => let l' := eval hnf in l in change l with l'; constructor
  | |- In _ _ => apply in_b; reflexivity
  | |- ~ In _ _ => apply notin_b; reflexivity
  | |- plain_tok (Lit _) => apply notin_b; reflexivity
  | |- quoted_tok (Lit _) => apply notin_b; reflexivity
  | |- plain_tok (Esc _) => discriminate
  | |- quoted_tok (Esc _) => discriminate
  end.
Example C16_example : doc_ok [B "tags"] ex_doc.
Proof.
  assert (Hpf : forall no c l, ~ In c (hblanks ++ no) -> plain_first no (Lit c :: l)).
  { intros no c l H t r E. injection E as <- _. eauto. }
  assert (Hpl : forall l t, ~ In (tok_char t) (hblanks ++ newlines) -> plain_last (l ++ [t])).
  { intros l t H r x E. apply app_inj_tail in E. destruct E as [_ <-]. exact H. }
  assert (Hkl : forall (k : bytes) c, ~ In c hblanks -> forall r c', k ++ [c] = r ++ [c'] -> ~ In c' hblanks).
  { intros k c H r c' E. apply app_inj_tail in E. destruct E as [_ <-]. exact H. }
  split.
  - bytes_ok.
  - constructor; [|constructor; [|constructor]]; cbn [fst snd].
    + split; [split; [discriminate|bytes_ok]|].
      split; [intro H; simpl in H; destruct H as [H|H]; [discriminate|contradiction]|]. intros _.
      constructor; [cbn [map_line_ok list_line_ok]; bytes_ok|].
      constructor.
      { split; [|split; [|bytes_ok]].
        - split; [apply no_nulb_spec; reflexivity|].
          split; [bytes_ok|].
          split; [exists "a"%char, (B " b"); split; [reflexivity|bytes_ok]|].
          split; [|bytes_ok].
          apply (Hkl (B "a ") "b"%char). bytes_ok.
        - split; [bytes_ok|].
          split; [bytes_ok|].
          split; [apply Hpf; bytes_ok|].
          split; [apply (Hpl [_; _; _]); bytes_ok|].
          split; [bytes_ok|discriminate]. }
      constructor; [cbn [map_line_ok list_line_ok]; bytes_ok|].
      constructor.
      { split; [|split; [|bytes_ok]].
        - split; [apply no_nulb_spec; reflexivity|].
          split; [bytes_ok|].
          split; [exists "c"%char, []; split; [reflexivity|bytes_ok]|].
          split; [|constructor]. apply (Hkl [] "c"%char). bytes_ok.
        - split; [constructor|]. split; [|constructor].
          bytes_ok. }
      constructor; [cbn [map_line_ok]; bytes_ok|constructor].
    + split; [split; [discriminate|bytes_ok]|].
      split; [|intro H; destruct H; simpl; auto]. intros _.
      constructor; [cbn [map_line_ok list_line_ok]; bytes_ok|].
      constructor.
      { split; [|bytes_ok]. split; [|discriminate].
        split; [constructor|].
        split; [bytes_ok|].
        split; [apply Hpf; bytes_ok|].
        split; [apply (Hpl [_; _]); bytes_ok|].
        split; [constructor|discriminate]. }
      constructor; [|constructor].
      split; [|bytes_ok]. split; [|exact I].
      split; [bytes_ok|].
      split; [bytes_ok|].
      bytes_ok.
Qed.
Example C16_example_values :
  match config_parse [B "tags"] (doc_text ex_doc) with
  | Ok (inl cfg) => config_get cfg (B "global") (B "a b") = Some (B "x= y")
      /\ config_get cfg (B "global") (B "c") = Some (B " q"" ")
      /\ config_get_list cfg (B "tags") = Some [B "foo"; B "b r"]
  | _ => False
  end.
Proof. vm_compute. repeat split. Qed.

(* ---------- C17 ---------- *)
(* The full claim: removing the newline at the end of the file changes nothing.
   It fails: a list item of one byte, and a key followed by blanks, are lost. *)
Theorem C17_item_lost_refuted : exists (lists : list bytes) (d : doc) (l : line) cfg cfg',
  config_parse lists (doc_text d ++ line_text l) = Ok (inl cfg)
  /\ config_get_list cfg (B "s") = Some [B "x"]
  /\ config_parse lists (doc_text d ++ line_text0 l) = Ok (inl cfg')
  /\ config_get_list cfg' (B "s") = Some [].
Proof.
  exists [B "s"], (Doc [] [(B "s", [Blank [LF]])]), (Item (Plain [] [Lit "x"%char] []) LF).
  eexists. eexists. split; [vm_compute; reflexivity|]. split; [reflexivity|].
  split; [vm_compute; reflexivity|reflexivity].
Qed.
Print Assumptions C17_item_lost_refuted.

Theorem C17_key_lost_refuted : exists (d : doc) (l : line) cfg cfg',
  config_parse [] (doc_text d ++ line_text l) = Ok (inl cfg)
  /\ config_get cfg (B "s") (B "k") = Some []
  /\ config_parse [] (doc_text d ++ line_text0 l) = Ok (inl cfg')
  /\ config_get cfg' (B "s") (B "k") = None.
Proof.
  exists (Doc [] [(B "s", [Blank [LF]])]), (Key (B "k") [SP] (Plain [SP] [] []) LF).
  eexists. eexists. split; [vm_compute; reflexivity|]. split; [reflexivity|].
  split; [vm_compute; reflexivity|reflexivity].
Qed.
Print Assumptions C17_key_lost_refuted.

(* What does hold, exactly: without its end of line, the last line takes effect
   iff [survives] says so; otherwise it is as if it were not there. Missing from
   the full claim: the lines that do not survive. *)
Theorem C17_last_line_partial : forall (lists : list bytes) (d : doc) (l : line),
  doc_ok lists (add_line d l) ->
  config_parse lists (doc_text d ++ line_text0 l)
  = config_parse lists (doc_text (if survives l then add_line d l else d)).
Proof. exact eof_parse. Qed.
Print Assumptions C17_last_line_partial.

(* [add_line] is the document whose text has the line appended *)
Theorem C17_add_line_text : forall (d : doc) (l : line),
  doc_text (add_line d l) = doc_text d ++ line_text0 l ++ line_eol l.
Proof. exact add_line_text. Qed.
Print Assumptions C17_add_line_text.

Example C17_example :
  map survives [Key (B "k") [] (Plain [] (map Lit (B "v")) []) LF;
                Key (B "k") [] (Plain [] [] []) LF; Key (B "k") [] (Plain [SP] [] []) LF;
                Key (B "k") [] (Plain [] [Lit "a"%char; Esc "b"%char] []) LF;
                Item (Plain [] (map Lit (B "ab")) []) LF; Item (Plain [] (map Lit (B "a")) []) LF]
  = [true; true; false; false; true; false].
Proof. reflexivity. Qed.
