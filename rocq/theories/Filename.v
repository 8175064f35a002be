(* Model of bm_generate_filename and bm_generate_filename2, src/blogc-make/utils.c 18-104. *)
From Verif Require Import Base.

(* x != NULL && x[0] != '\0' *)
Definition have (x : option bytes) : bool :=
  match x with Some (_ :: _) => true | _ => false end.
Definition text (x : option bytes) : bytes := match x with Some s => s | None => [] end.
Definition starts_slash (s : bytes) : bool :=
  match s with c :: _ => c == "/"%char | [] => false end.
Definition when (b : bool) (s : bytes) : bytes := if b then s else [].

(* bm_generate_filename, 18-71; None is NULL *)
Definition generate_filename (dir gprefix prefix fname ext : option bytes) : option bytes :=
  let have_gprefix := have gprefix in
  let have_prefix := have prefix in
  let have_fname := have fname in
  let have_ext := have ext in
  let have_ext_noslash := have_ext && negb (starts_slash (text ext)) in
  let is_index := have_fname && have_ext && beq (text fname) (B "index") && starts_slash (text ext)
                  && negb have_prefix in
  let rv :=
    when (have_gprefix || have_prefix || have_fname || have_ext) (text dir)      (* 33-34 *)
    ++ when have_gprefix (B "/" ++ text gprefix)                                 (* 36-39 *)
    ++ when ((have_prefix || have_fname || have_ext_noslash) && negb is_index) (B "/") (* 41-42 *)
    ++ when have_prefix (text prefix)                                            (* 44-45 *)
    ++ (if have_fname then                                                       (* 48-53 *)
          when (have_prefix && negb (starts_slash (text fname))) (B "/")
          ++ when (negb is_index) (text fname)
        else if have_ext_noslash then                                            (* 56-61 *)
          when (negb have_prefix) (B "index")
        else [])
    ++ when have_ext (text ext) in                                               (* 63-64 *)
  match rv with [] => None | _ => Some rv end.

(* bm_generate_filename2, 74-104 *)
Definition generate_filename2 (dir gprefix prefix fname prefix2 fname2 ext : option bytes) : option bytes :=
  let have_prefix := have prefix in
  let have_fname := have fname in
  let have_prefix2 := have prefix2 in
  let p := when have_prefix (text prefix)
           ++ when (have_prefix && (have_fname || have_prefix2)) (B "/")
           ++ when have_fname (text fname)
           ++ when (have_fname && have_prefix2) (B "/")
           ++ when have_prefix2 (text prefix2) in
  generate_filename dir gprefix (Some p) fname2 ext.
