(* Model of src/common/config-parser.c. *)
From Verif Require Import Base Utils Trie.

(* bc_configparser_state_t, 12-25 *)
Inductive cstate : Type :=
| CStart | CSectionStart | CSection | CKey | CValueStart | CValueQuote | CValuePostQuoted
| CValue | CListStart | CListQuote | CListPostQuoted | CList.

(* bc_configparser_section_t, 32-35: type and data *)
Inductive csection : Type :=
| SMap (m : trie bytes)
| SList (l : list bytes).

Definition config : Type := trie csection.            (* bc_config_t: root *)

(* bc_error_t: message and the offset handed to bc_error_parser *)
Record cerror : Type := CErr { ce_msg : bytes; ce_at : nat }.

(* Local variables of bc_config_parse, 63-76. [section] is the section struct
   the pointer refers to, together with the key under which rv->root owns it:
   mutating the struct in place is modelled by storing the new struct back under
   that key (it is the value found there: see upd_section). *)
Record cst : Type := Cst
  { c_state : cstate; c_start : nat; c_section : option (bytes * csection);
    c_key : option bytes; c_value : option bytes; c_escaped : bool; c_root : config }.

Definition init_cst : cst := Cst CStart 0 None None None false trie_new.

Definition upd_section (s : cst) (name : bytes) (d : csection) : cst :=
  Cst (c_state s) (c_start s) (Some (name, d)) (c_key s) (c_value s) (c_escaped s)
      (trie_insert (c_root s) name d).
Definition set_state (s : cst) (q : cstate) : cst :=
  Cst q (c_start s) (c_section s) (c_key s) (c_value s) (c_escaped s) (c_root s).
Definition set_start (s : cst) (n : nat) : cst :=
  Cst (c_state s) n (c_section s) (c_key s) (c_value s) (c_escaped s) (c_root s).
Definition set_key (s : cst) (k : option bytes) : cst :=
  Cst (c_state s) (c_start s) (c_section s) k (c_value s) (c_escaped s) (c_root s).
Definition set_value (s : cst) (v : option bytes) : cst :=
  Cst (c_state s) (c_start s) (c_section s) (c_key s) v (c_escaped s) (c_root s).
Definition set_escaped (s : cst) (e : bool) : cst :=
  Cst (c_state s) (c_start s) (c_section s) (c_key s) (c_value s) e (c_root s).

(* bc_string_append_c(value, c): nothing happens on a NULL builder *)
Definition value_append (s : cst) (c : ascii) : cst :=
  match c_value s with
  | Some v => set_value s (Some (v ++ [c]))
  | None => s
  end.

(* what one iteration of the while loop does next: go to the next byte, look at
   the same byte again (continue), skip a comment, or stop with an error *)
Inductive action : Type :=
| Next (s : cst)
| Again (s : cst)
| Comment (s : cst)
| Fail (e : cerror).

(* bc_trie_insert(section->data, bc_str_strip(key), v); section NULL or a list
   is undefined; a NULL key inserts nothing (utils.c 549). *)
Definition map_insert (s : cst) (v : bytes) : res cst :=
  match c_section s with
  | Some (name, SMap m) =>
      match c_key s with
      | Some k => Ok (upd_section s name (SMap (trie_insert m (strip k) v)))
      | None => Ok s
      end
  | _ => UB
  end.

(* section->data = bc_slist_append(section->data, x) *)
Definition list_append (s : cst) (x : bytes) : res cst :=
  match c_section s with
  | Some (name, SList l) => Ok (upd_section s name (SList (l ++ [x])))
  | _ => UB
  end.

Definition nl (c : ascii) : bool := (c == CR) || (c == LF).
Definition hblank (c : ascii) : bool := (c == SP) || (c == TAB) || (c == FF) || (c == VT).

(* the body of the while loop after the read of c, 82-306 *)
Definition cfg_step (lists : list bytes) (src : bytes) (current : nat) (s : cst) (c : ascii)
  (is_last : bool) : res action :=
  if c_escaped s then Ok (Next (set_escaped (value_append s c) false))            (* 82-87 *)
  else if (match c_value s with Some _ => true | None => false end) && (c == BSL)
  then Ok (Next (set_escaped s true))                                           (* 89-93 *)
  else
  match c_state s with
  | CStart =>                                                                   (* 97-128 *)
      if (c == "#"%char) || (c == ";"%char) then Ok (Comment s)
      else if (c == SP) || (c == TAB) || (c == CR) || (c == LF) then Ok (Next s)
      else if c == "["%char then Ok (Next (set_state s CSectionStart))
      else match c_section s with
           | Some (_, SMap _) => Ok (Again (set_state (set_start s current) CKey))
           | Some (_, SList _) =>
               let s1 := set_state (set_start s current) CListStart in
               Ok (Again (match c_value s with None => set_value s1 (Some []) | Some _ => s1 end))
           | None => Ok (Fail (CErr (B "File must start with section.") current))
           end
  | CSectionStart => Ok (Next (set_state (set_start s current) CSection))       (* 130-133 *)
  | CSection =>                                                                 (* 135-166 *)
      if c == "]"%char then
        let name := strndup (skipn (c_start s) src) (current - c_start s) in
        let d := if existsb (beq name) lists then SList [] else SMap trie_new in
        Ok (Next (set_state (upd_section s name d) CStart))
      else if negb (nl c) then Ok (Next s)
      else Ok (Fail (CErr (B "Section names can't have new lines.") current))
  | CKey =>                                                                     (* 168-193 *)
      if c == "="%char then
        let s1 := set_state (set_key s (Some (strndup (skipn (c_start s) src) (current - c_start s))))
                    CValueStart in
        if is_last then do s2 <- map_insert s1 [] ; Ok (Next (set_key s2 None))
        else Ok (Next (match c_value s1 with None => set_value s1 (Some []) | Some _ => s1 end))
      else if negb (nl c) && negb is_last then Ok (Next s)
      else
        let e := if is_last && negb (nl c) then length src else current in
        let k := strndup (skipn (c_start s) src) (e - c_start s) in
        Ok (Fail (CErr (B "Key without value: " ++ k ++ B ".") current))
  | CValueStart =>                                                              (* 195-208 *)
      if hblank c then Ok (Next s)
      else if c == DQ then Ok (Next (set_state s CValueQuote))
      else if nl c || is_last then Ok (Again (set_state s CValue))
      else Ok (Next (set_state (value_append s c) CValue))
  | CValueQuote =>                                                              (* 210-221 *)
      if c == DQ then
        match c_value s with
        | Some v =>
            do s1 <- map_insert s (cstr v) ;
            Ok (Next (set_state (set_value (set_key s1 None) None) CValuePostQuoted))
        | None => UB          (* a NULL value would be inserted: not reachable *)
        end
      else Ok (Next (value_append s c))
  | CValuePostQuoted =>                                                         (* 223-233 *)
      if hblank c then Ok (Next s)
      else if nl c || is_last then Ok (Next (set_state s CStart))
      else Ok (Fail (CErr (B "Invalid value for key, should not have anything after quotes.") current))
  | CValue =>                                                                   (* 235-249 *)
      if nl c || is_last then
        let s1 := if is_last && negb (nl c) then value_append s c else s in
        match c_value s1 with
        | Some v =>
            do s2 <- map_insert s1 (rstrip (cstr v)) ;
            Ok (Next (set_state (set_value (set_key s2 None) None) CStart))
        | None => UB                                    (* value->str *)
        end
      else Ok (Next (value_append s c))
  | CListStart =>                                                               (* 251-260 *)
      if hblank c then Ok (Next s)
      else if c == DQ then Ok (Next (set_state s CListQuote))
      else Ok (Next (set_state (value_append s c) CList))
  | CListQuote =>                                                               (* 262-272 *)
      if c == DQ then
        match c_value s with
        | Some v =>
            do s1 <- list_append s (cstr v) ;
            Ok (Next (set_state (set_value s1 None) CListPostQuoted))
        | None => UB
        end
      else Ok (Next (value_append s c))
  | CListPostQuoted =>                                                          (* 274-284 *)
      if hblank c then Ok (Next s)
      else if nl c || is_last then Ok (Next (set_state s CStart))
      else Ok (Fail (CErr (B "Invalid value for list item, should not have anything after quotes.") current))
  | CList =>                                                                    (* 286-299 *)
      if nl c || is_last then
        let s1 := if is_last && negb (nl c) then value_append s c else s in
        match c_value s1 with
        | Some v =>
            do s2 <- list_append s1 (strip (cstr v)) ;
            Ok (Next (set_state (set_value s2 None) CStart))
        | None => UB
        end
      else Ok (Next (value_append s c))
  end.

(* the inner loop over a comment, 99-103: index of the newline, or src_len *)
Fixpoint comment_end (fuel : nat) (src : bytes) (current : nat) : res nat :=
  match fuel with
  | 0 => OutOfFuel
  | S fuel =>
      if Nat.ltb current (length src) then
        do c <- rd src current ;
        if nl c then Ok current else comment_end fuel src (current + 1)
      else Ok current
  end.

(* while (current < src_len), 78-310 *)
Fixpoint cfg_loop (fuel : nat) (lists : list bytes) (src : bytes) (current : nat) (s : cst)
  : res (config + cerror) :=
  match fuel with
  | 0 => OutOfFuel
  | S fuel =>
      if Nat.ltb current (length src) then
        do c <- rd src current ;
        do a <- cfg_step lists src current s c (Nat.eqb current (length src - 1)) ;
        match a with
        | Next s' => cfg_loop fuel lists src (current + 1) s'
        | Again s' => cfg_loop fuel lists src current s'
        | Comment s' =>
            do e <- comment_end (S (length src)) src current ;
            cfg_loop fuel lists src (e + 1) s'
        | Fail e => Ok (inr e)
        end
      else Ok (inl (c_root s))
  end.

(* bc_config_parse, 56-317; [lists] is list_sections ([] for NULL) *)
Definition config_parse (lists : list bytes) (src : bytes) : res (config + cerror) :=
  cfg_loop (2 * length src + 2) lists src 0 init_cst.

(* bc_config_list_sections, 327-346 *)
Definition config_list_sections (cfg : config) : list bytes := map fst (trie_foreach cfg).

(* bc_config_list_keys, 349-375 *)
Definition config_list_keys (cfg : config) (sec : bytes) : option (list bytes) :=
  match trie_lookup cfg sec with
  | Some (SMap m) => Some (map fst (trie_foreach m))
  | _ => None
  end.

(* bc_config_get, 378-392 *)
Definition config_get (cfg : config) (sec k : bytes) : option bytes :=
  match trie_lookup cfg sec with
  | Some (SMap m) => trie_lookup m k
  | _ => None
  end.

(* bc_config_get_with_default, 395-403 *)
Definition config_get_with_default (cfg : config) (sec k dflt : bytes) : bytes :=
  match config_get cfg sec k with Some v => v | None => dflt end.

(* bc_config_get_list, 406-427 *)
Definition config_get_list (cfg : config) (sec : bytes) : option (list bytes) :=
  match trie_lookup cfg sec with
  | Some (SList l) => Some l
  | _ => None
  end.
