(* Model of src/blogc-runserver: httpd-utils.c, mime.c and httpd.c. *)
From Verif Require Import Base Utils Content.
#[local] Open Scope nat_scope.

(* ---------- httpd-utils.c ---------- *)
(* br_readline, 11-37. [reads] are the results of the successive calls to read (the
   list ends when one returns zero or fails). [rv] is the line so far. *)
Definition ends_line (c : ascii) : bool := (c == CR) || (c == LF) || (c == NUL).
Fixpoint upto_end (s : bytes) : bytes :=        (* 19-29 *)
  match s with
  | [] => []
  | c :: r => if ends_line c then [] else c :: upto_end r
  end.
Fixpoint readline_go (bufsize : nat) (reads : list bytes) (ended : bool) (rv : bytes) : bytes :=
  match reads with
  | [] => rv
  | b :: r =>
      let rv' := if ended then rv else rv ++ upto_end b in
      let ended' := ended || existsb ends_line b in
      if Nat.ltb (length b) bufsize then rv' else readline_go bufsize r ended' rv'
  end.
(* READLINE_BUFFER_SIZE, httpd-utils.h 6 *)
Definition readline (reads : list bytes) : bytes := readline_go 2048 reads false [].

(* br_hextoi, 40-50; None is -1 *)
Definition hextoi (c : ascii) : option N :=
  if is_digit c then Some (nb c - nb "0"%char)%N
  else if in_range "a" "f" c then Some (nb c - nb "a"%char + 10)%N
  else if in_range "A" "F" c then Some (nb c - nb "A"%char + 10)%N
  else None.

(* br_urldecode, 53-81, on a C string: the bytes appended (a C string ends at the first
   NUL of them) *)
Fixpoint urldecode (s : bytes) : bytes :=
  match s with
  | [] => []
  | c :: r =>
      if c == "%"%char then
        match r with
        | h :: l :: r2 =>
            match hextoi h, hextoi l with
            | Some a, Some b => ascii_of_N (a * 16 + b) :: urldecode r2
            | _, _ => "%"%char :: urldecode r
            end
        | _ => "%"%char :: urldecode r
        end
      else if c == "+"%char then SP :: urldecode r
      else c :: urldecode r
  end.

(* br_get_extension, 84-100: from the end to index 1; [ext] are the bytes behind *)
Fixpoint extension_go (rev_name ext : bytes) : option bytes :=
  match rev_name with
  | [] => None
  | c :: r =>
      match r with
      | [] => None                              (* index 0 is not looked at *)
      | _ => if c == "."%char then Some ext
             else if (c == "/"%char) || (c == BSL) then None
             else extension_go r (c :: ext)
      end
  end.
Definition get_extension (name : bytes) : option bytes := extension_go (rev name) [].

(* ---------- mime.c ---------- *)
(* content_types, 17-125: type, extension, index *)
Definition content_types : list (bytes * bytes * option bytes) :=
  [(B "text/html", B "html", Some (B "index.html"));
   (B "text/html", B "htm", Some (B "index.htm"));
   (B "text/html", B "shtml", Some (B "index.shtml"));
   (B "text/xml", B "xml", Some (B "index.xml"));
   (B "text/plain", B "txt", Some (B "index.txt"));
   (B "application/xhtml+xml", B "xhtml", Some (B "index.xhtml"));
   (B "text/css", B "css", None);
   (B "image/gif", B "gif", None);
   (B "image/jpeg", B "jpeg", None);
   (B "image/jpeg", B "jpg", None);
   (B "application/javascript", B "js", None);
   (B "application/atom+xml", B "atom", None);
   (B "application/rss+xml", B "rss", None);
   (B "text/mathml", B "mml", None);
   (B "text/vnd.sun.j2me.app-descriptor", B "jad", None);
   (B "text/vnd.wap.wml", B "wml", None);
   (B "text/x-component", B "htc", None);
   (B "image/png", B "png", None);
   (B "image/tiff", B "tif", None);
   (B "image/tiff", B "tiff", None);
   (B "image/vnd.wap.wbmp", B "wbmp", None);
   (B "image/x-icon", B "ico", None);
   (B "image/x-jng", B "jng", None);
   (B "image/x-ms-bmp", B "bmp", None);
   (B "image/svg+xml", B "svg", None);
   (B "image/svg+xml", B "svgz", None);
   (B "image/webp", B "webp", None);
   (B "application/font-woff", B "woff", None);
   (B "application/java-archive", B "jar", None);
   (B "application/java-archive", B "war", None);
   (B "application/java-archive", B "ear", None);
   (B "application/json", B "json", None);
   (B "application/mac-binhex40", B "hqx", None);
   (B "application/msword", B "doc", None);
   (B "application/pdf", B "pdf", None);
   (B "application/postscript", B "ps", None);
   (B "application/postscript", B "eps", None);
   (B "application/postscript", B "ai", None);
   (B "application/rtf", B "rtf", None);
   (B "application/vnd.apple.mpegurl", B "m3u8", None);
   (B "application/vnd.ms-excel", B "xls", None);
   (B "application/vnd.ms-fontobject", B "eot", None);
   (B "application/vnd.ms-powerpoint", B "ppt", None);
   (B "application/vnd.wap.wmlc", B "wmlc", None);
   (B "application/vnd.google-earth.kml+xml", B "kml", None);
   (B "application/vnd.google-earth.kmz", B "kmz", None);
   (B "application/x-7z-compressed", B "7z", None);
   (B "application/x-cocoa", B "cco", None);
   (B "application/x-java-archive-diff", B "jardiff", None);
   (B "application/x-java-jnlp-file", B "jnlp", None);
   (B "application/x-makeself", B "run", None);
   (B "application/x-perl", B "pl", None);
   (B "application/x-perl", B "pm", None);
   (B "application/x-pilot", B "prc", None);
   (B "application/x-pilot", B "pdb", None);
   (B "application/x-rar-compressed", B "rar", None);
   (B "application/x-redhat-package-manager", B "rpm", None);
   (B "application/x-sea", B "sea", None);
   (B "application/x-shockwave-flash", B "swf", None);
   (B "application/x-stuffit", B "sit", None);
   (B "application/x-tcl", B "tcl", None);
   (B "application/x-tcl", B "tk", None);
   (B "application/x-x509-ca-cert", B "der", None);
   (B "application/x-x509-ca-cert", B "pem", None);
   (B "application/x-x509-ca-cert", B "crt", None);
   (B "application/x-xpinstall", B "xpi", None);
   (B "application/xspf+xml", B "xspf", None);
   (B "application/zip", B "zip", None);
   (B "application/octet-stream", B "bin", None);
   (B "application/octet-stream", B "exe", None);
   (B "application/octet-stream", B "dll", None);
   (B "application/octet-stream", B "deb", None);
   (B "application/octet-stream", B "dmg", None);
   (B "application/octet-stream", B "iso", None);
   (B "application/octet-stream", B "img", None);
   (B "application/octet-stream", B "msi", None);
   (B "application/octet-stream", B "msp", None);
   (B "application/octet-stream", B "msm", None);
   (B "application/vnd.openxmlformats-officedocument.wordprocessingml.document", B "docx", None);
   (B "application/vnd.openxmlformats-officedocument.spreadsheetml.sheet", B "xlsx", None);
   (B "application/vnd.openxmlformats-officedocument.presentationml.presentation", B "pptx", None);
   (B "audio/midi", B "mid", None);
   (B "audio/midi", B "midi", None);
   (B "audio/midi", B "kar", None);
   (B "audio/mpeg", B "mp3", None);
   (B "audio/ogg", B "ogg", None);
   (B "audio/x-m4a", B "m4a", None);
   (B "audio/x-realaudio", B "ra", None);
   (B "video/3gpp", B "3gpp", None);
   (B "video/3gpp", B "3gp", None);
   (B "video/mp2t", B "ts", None);
   (B "video/mp4", B "mp4", None);
   (B "video/mpeg", B "mpeg", None);
   (B "video/mpeg", B "mpg", None);
   (B "video/quicktime", B "mov", None);
   (B "video/webm", B "webm", None);
   (B "video/x-flv", B "flv", None);
   (B "video/x-m4v", B "m4v", None);
   (B "video/x-mng", B "mng", None);
   (B "video/x-ms-asf", B "asx", None);
   (B "video/x-ms-asf", B "asf", None);
   (B "video/x-ms-wmv", B "wmv", None);
   (B "video/x-msvideo", B "avi", None)].

(* br_mime_guess_content_type, 129-143 *)
Fixpoint find_type (l : list (bytes * bytes * option bytes)) (ext : bytes) : bytes :=
  match l with
  | [] => B "application/octet-stream"
  | (ct, e, _) :: r => if beq e ext then ct else find_type r ext
  end.
Definition guess_content_type (name : bytes) : bytes :=
  match get_extension name with
  | None => B "application/octet-stream"
  | Some ext => find_type content_types ext
  end.

(* br_mime_guess_index, 146-160: stops at the first entry without index *)
Fixpoint guess_index_go (access : bytes -> bool) (path : bytes) (l : list (bytes * bytes * option bytes)) : option bytes :=
  match l with
  | (_, _, Some i) :: r =>
      let f := path ++ B "/" ++ i in if access f then Some f else guess_index_go access path r
  | _ => None
  end.
Definition guess_index (access : bytes -> bool) (path : bytes) : option bytes := guess_index_go access path content_types.

(* ---------- httpd.c ---------- *)
Inductive response : Type :=
| Nothing                                  (* the connection is closed *)
| Error (code : nat) (reason : bytes)
| Redirect (path : bytes)
| File (name data : bytes).

Section Request.
(* the file system. [enoent]: realpath failed with ENOENT *)
Variable realpath : bytes -> option bytes.
Variable enoent : bytes -> bool.
Variable stat : bytes -> option bool.          (* is it a directory *)
Variable access : bytes -> bool.
Variable contents : bytes -> option bytes.

(* handle_request, 95-199, from the decoded path; the file system does not change
   meanwhile *)
Definition serve (docroot path : bytes) : response :=
  let abs := docroot ++ B "/" ++ path in
  match realpath abs with
  | None => if enoent abs then Error 404 (B "Not Found") else Error 500 (B "Internal Server Error")
  | Some real_path =>
      match realpath docroot with
      | None => Error 500 (B "Internal Server Error")
      | Some real_root =>
          if negb (beq (firstn (length real_root) real_path) real_root) then Error 404 (B "Not Found")
          else match stat real_path with
               | None => Error 404 (B "Not Found")
               | Some dir =>
                   let target :=
                     if dir : bool then
                       match guess_index access real_path with
                       | None => None
                       | Some found => Some (found, Nat.ltb 0 (length path) && negb (last path NUL == "/"%char))
                       end
                     else Some (real_path, false) in
                   match target with
                   | None => Error 403 (B "Forbidden")
                   | Some (f, add_slash) =>
                       if negb (access f) then Error 500 (B "Internal Server Error")
                       else if add_slash : bool then Redirect path
                       else match contents f with
                            | None => Error 500 (B "Internal Server Error")
                            | Some data => File f data
                            end
                   end
               end
      end
  end.

(* handle_request, 56-216: the response to a request line. strlen of NULL, for a
   request without path, is undefined behaviour: bc_str_split of an empty string has no
   pieces. *)
Definition handle_request (docroot line : bytes) : res response :=
  match line with
  | [] => Ok Nothing
  | _ =>
      match str_split line SP 3 with
      | [method; target; _] =>
          if negb (beq method (B "GET")) then Ok (Error 405 (B "Method Not Allowed"))
          else match str_split target "?"%char 2 with
               | [] => UB
               | p :: _ => Ok (serve docroot (cstr (urldecode p)))
               end
      | _ => Ok (Error 400 (B "Bad Request"))
      end
  end.
End Request.

(* what is written to the socket, 38-52, 155-172, 184-198 *)
Definition crlf : bytes := [CR; LF].
Definition response_bytes (r : response) : bytes :=
  match r with
  | Nothing => []
  | Error code reason =>
      B "HTTP/1.0 " ++ dec (N.of_nat code) ++ [SP] ++ reason ++ crlf ++ B "Content-Type: text/html" ++ crlf
      ++ B "Content-Length: " ++ dec (N.of_nat (length reason + 10)) ++ crlf ++ B "Connection: close" ++ crlf ++ crlf
      ++ B "<h1>" ++ reason ++ B "</h1>" ++ [LF]
  | Redirect path =>
      B "HTTP/1.0 302 Found" ++ crlf ++ B "Location: " ++ path ++ B "/" ++ crlf ++ B "Content-Length: 0" ++ crlf
      ++ B "Connection: close" ++ crlf ++ crlf
  | File name data =>
      B "HTTP/1.0 200 OK" ++ crlf ++ B "Content-Type: " ++ guess_content_type name ++ crlf
      ++ B "Content-Length: " ++ dec (N.of_nat (length data)) ++ crlf ++ B "Connection: close" ++ crlf ++ crlf ++ data
  end.

(* ---------- the accept loop, httpd.c 346-399 ---------- *)
(* [workers]: the threads created and not joined yet: slot and whether still running.
   [Idle]: in accept; [Accepted]: before pthread_join or pthread_create; [Joined]:
   before pthread_create; [Stopped]: the function returns. *)
Inductive mode : Type := Idle | Accepted | Joined | Stopped.
Record server : Type := Server { md : mode; current : nat; initialized : nat -> bool; workers : list (nat * bool) }.
Definition started : server := Server Idle 0 (fun _ => false) [].

Inductive sstep (max_threads : nat) : server -> server -> Prop :=
| S_accept c i w : sstep max_threads (Server Idle c i w) (Server Accepted c i w)
| S_accept_fails c i w : sstep max_threads (Server Idle c i w) (Server Stopped c i w)
| S_first c i w : i c = false -> sstep max_threads (Server Accepted c i w) (Server Joined c i w)
| S_join c i w1 w2 : i c = true ->            (* waits until the thread of the slot has finished *)
    sstep max_threads (Server Accepted c i (w1 ++ (c, false) :: w2)) (Server Joined c i (w1 ++ w2))
| S_create c i w : sstep max_threads (Server Joined c i w)
    (Server Idle (if Nat.leb max_threads (c + 1) then 0 else c + 1) (fun x => if Nat.eqb x c then true else i x) (w ++ [(c, true)]))
| S_create_fails c i w : sstep max_threads (Server Joined c i w) (Server Stopped c i w)
| S_finish m c i w1 w2 s :                    (* a thread finishes *)
    sstep max_threads (Server m c i (w1 ++ (s, true) :: w2)) (Server m c i (w1 ++ (s, false) :: w2)).
Inductive ssteps (max_threads : nat) : server -> server -> Prop :=
| SS_refl s : ssteps max_threads s s
| SS_step s1 s2 s3 : ssteps max_threads s1 s2 -> sstep max_threads s2 s3 -> ssteps max_threads s1 s3.
