(* Model of what the thread of a request allocates, frees, sends and logs: handle_request,
   src/blogc-runserver/httpd.c 56-216. Which response is sent is also modelled, without the
   resources, by Runserver.v; that both agree is proved in P_Handle.v. *)
From Verif Require Import Base Utils Content Runserver.

(* what is allocated: conn_line, pieces, pieces2, path, abs_path, real_path, real_root, what
   br_mime_guess_index gives, the text of error() or of a header, the file, its error, the address
   of the client *)
Inductive thing : Type := TLine | TPieces | TPieces2 | TPath | TAbs | TReal | TRoot | TFound | TText | TContents | TError | TIp.
Inductive hact : Type :=
| HAlloc (x : thing) | HFree (x : thing)
| HUse (x : thing)                                    (* its bytes are read *)
| HSend (b : bytes)                                   (* all of it; short writes are only warned about *)
| HLog (status : nat) (line : bytes)                  (* 208-209: the status and the request line of the log *)
| HClose.

(* the labels at the end, 200-215 *)
Definition point0 : list hact := [HFree TIp; HClose].
Definition point1 (status : nat) (line : bytes) : list hact :=
  [HUse TIp; HUse TLine; HLog status line; HFree TLine; HFree TPieces] ++ point0.
Definition point2 (status : nat) (line : bytes) : list hact := HFree TPath :: point1 status line.
Definition point3 (real : thing) (status : nat) (line : bytes) : list hact := HFree real :: point2 status line.
Definition point4 (real : thing) (status : nat) (line : bytes) : list hact := HFree TRoot :: point3 real status line.

(* error(), 38-54 *)
Definition send_error (code : nat) (reason : bytes) : list hact :=
  [HAlloc TText; HUse TText; HSend (response_bytes (Error code reason)); HFree TText].
(* 184-189 *)
Definition file_header (name : bytes) (len : nat) : bytes :=
  B "HTTP/1.0 200 OK" ++ crlf ++ B "Content-Type: " ++ guess_content_type name ++ crlf
  ++ B "Content-Length: " ++ dec (N.of_nat len) ++ crlf ++ B "Connection: close" ++ crlf ++ crlf.

Section Request.
Variable realpath : bytes -> option bytes.
Variable enoent : bytes -> bool.
Variable stat : bytes -> option bool.
Variable access : bytes -> bool.
Variable contents : bytes -> option bytes.

(* 144-198, with real_path pointing to [real], whose text is [f] *)
Definition send_file (line path f : bytes) (real : thing) (add_slash : bool) : list hact :=
  [HUse real] ++
  if negb (access f) then send_error 500 (B "Internal Server Error") ++ point4 real 500 line
  else if add_slash then
    [HUse TPath; HAlloc TText; HUse TText; HSend (response_bytes (Redirect path)); HFree TText] ++ point4 real 302 line
  else HUse real ::
    match contents f with
    | None => [HAlloc TError] ++ send_error 500 (B "Internal Server Error") ++ [HFree TError] ++ point4 real 500 line
    | Some data =>
        [HAlloc TContents; HUse real; HAlloc TText; HUse TText; HSend (file_header f (length data)); HFree TText;
         HUse TContents; HSend data; HFree TContents] ++ point4 real 200 line
    end.

(* 95-142 *)
Definition send_path (docroot line path : bytes) : list hact :=
  let abs := docroot ++ B "/" ++ path in
  [HUse TPath; HAlloc TAbs; HUse TAbs] ++
  match realpath abs with
  | None =>
      HFree TAbs ::
      (if enoent abs then send_error 404 (B "Not Found") ++ point2 404 line
       else send_error 500 (B "Internal Server Error") ++ point2 500 line)
  | Some real_path =>
      [HAlloc TReal; HFree TAbs] ++
      match realpath docroot with
      | None => send_error 500 (B "Internal Server Error") ++ point3 TReal 500 line
      | Some real_root =>
          [HAlloc TRoot; HUse TRoot; HUse TReal] ++
          if negb (beq (firstn (length real_root) real_path) real_root)
          then send_error 404 (B "Not Found") ++ point4 TReal 404 line
          else HUse TReal ::
            match stat real_path with
            | None => send_error 404 (B "Not Found") ++ point4 TReal 404 line
            | Some true =>
                HUse TReal ::
                match guess_index access real_path with
                | None => send_error 403 (B "Forbidden") ++ point4 TReal 403 line
                | Some found =>
                    [HAlloc TFound; HUse TPath; HFree TReal] ++
                    send_file line path found TFound (Nat.ltb 0 (length path) && negb (last path NUL == "/"%char))
                end
            | Some false => send_file line path real_path TReal false
            end
      end
  end.

(* 63-93; what br_readline gives is [line] *)
Definition handle (docroot line : bytes) : res (list hact) :=
  match line with
  | [] => Ok ([HAlloc TLine; HUse TLine] ++ point0)           (* 67-69: conn_line is not freed *)
  | _ =>
      let start := [HAlloc TLine; HUse TLine; HAlloc TPieces; HUse TPieces] in
      match str_split line SP 3 with
      | [method; target; _] =>
          if negb (beq method (B "GET"))
          then Ok (start ++ send_error 405 (B "Method Not Allowed") ++ point1 405 line)
          else match str_split target "?"%char 2 with
               | [] => UB
               | p :: _ =>
                   Ok (start ++ [HAlloc TPieces2; HUse TPieces2; HAlloc TPath; HFree TPieces2] ++
                       send_path docroot line (cstr (urldecode p)))
               end
      | _ => Ok (start ++ send_error 400 (B "Bad Request") ++ point1 400 line)
      end
  end.
End Request.
