(** Thumbnail requests: thumbnailer.cpp:97-281.  Strings are lists of character codes. *)
From Coq Require Import NArith List Bool.
Import ListNotations.
From Verif Require Import Base Labels.
Open Scope N_scope.

(** 54: "file://" *)
Definition iri_prefix : str := [102; 105; 108; 101; 58; 47; 47].
Definition hex (c : N) : option N :=
  if (48 <=? c) && (c <=? 57) then Some (c - 48) else if (65 <=? c) && (c <=? 70) then Some (c - 55) else if (97 <=? c) && (c <=? 102) then Some (c - 87) else None.
(** QUrl(uri).path() of "file://" followed by an absolute path: up to the query or fragment,
    with percent encoding undone.  Simplification: encoded bytes above 127 (UTF-8 sequences)
    are left encoded; characters QUrl would reject are not considered. *)
Fixpoint url_decode (s : str) : str :=
  match s with
  | [] => []
  | c :: r =>
      if (c =? 63) || (c =? 35) then []
      else if c =? 37 then
        match r with
        | a :: b :: r' =>
            match hex a, hex b with
            | Some x, Some y => if 16 * x + y <? 128 then (16 * x + y) :: url_decode r' else c :: url_decode r
            | _, _ => c :: url_decode r
            end
        | _ => c :: url_decode r
        end
      else c :: url_decode r
  end.
Definition url_path (uri : str) : str := url_decode (skipn 7 uri).

Record thumbs := mk_thumbs {
  t_enabled : bool; t_suspended : bool; t_timer : bool;    (* m_thumbnailTimer->isActive() *)
  t_paths : list (str * str);                               (* m_thumbnailPaths, latest first *)
  t_requested : list str;                                   (* m_uriAlreadyRequested *)
  t_queue : list str                                        (* m_uriRequestQueue *)
}.
(** 97-128 *)
Definition t_init : thumbs := mk_thumbs false false false [] [] [].
Definition set_timer (b : bool) (s : thumbs) := mk_thumbs (t_enabled s) (t_suspended s) b (t_paths s) (t_requested s) (t_queue s).
(** 243-259; the timer's interval is not modelled *)
Definition schedule (s : thumbs) : thumbs :=
  set_timer (t_enabled s && negb (t_suspended s) && negb (match t_queue s with [] => true | _ => false end)) s.

Inductive tin :=
| TRequest (path : str)                       (* requestThumbnail, 261-281 *)
| TTimeout                                     (* the timer fires *)
| TReady (thumbnails : list (str * str))     (* the D-Bus signal Ready: uri and thumbnail file *)
| TFailed (uris : list str) | TFinished        (* the other D-Bus signals; nothing is done *)
| TReplied (error : bool)                      (* the answer to a request; nothing is done *)
| TEnable | TSuspend | TResume.
Inductive tout :=
| OAnswer (thumb : str)                       (* requestThumbnail's result *)
| OFetch (uris : list str)                    (* the D-Bus call Fetch *)
| OReady (path : str).                         (* the signal thumbnailReady *)
Fixpoint lookup (p : str) (l : list (str * str)) : option str :=
  match l with [] => None | (q, v) :: r => if str_eqb p q then Some v else lookup p r end.
Definition remove_uri (u : str) (l : list str) : list str := filter (fun x => negb (str_eqb u x)) l.
(** 130-151 *)
Fixpoint slot_ready (l : list (str * str)) (s : thumbs) : thumbs * list tout :=
  match l with
  | [] => (s, [])
  | (uri, thumb) :: r =>
      if negb (mem uri (t_requested s)) then slot_ready r s
      else
        let s := mk_thumbs (t_enabled s) (t_suspended s) (t_timer s) ((url_path uri, thumb) :: t_paths s) (remove_uri uri (t_requested s)) (t_queue s) in
        let '(s', o) := slot_ready r s in (s', OReady (url_path uri) :: o)
  end.
Definition t_step (s : thumbs) (i : tin) : thumbs * list tout :=
  match i with
  | TRequest p =>
      match lookup p (t_paths s) with
      | Some v => (s, [OAnswer v])
      | None =>
          let uri := iri_prefix ++ p in
          if mem uri (t_requested s) then (s, [OAnswer []])
          else (schedule (mk_thumbs (t_enabled s) (t_suspended s) (t_timer s) (t_paths s) (uri :: t_requested s) (t_queue s ++ [uri])), [OAnswer []])
      end
  | TTimeout =>                                 (* 183-216 *)
      if negb (t_timer s) then (s, [])
      else match t_queue s with
        | [] => (set_timer false s, [])
        | _ => (mk_thumbs (t_enabled s) (t_suspended s) (t_timer s) (t_paths s) (t_requested s) (skipn 128 (t_queue s)), [OFetch (firstn 128 (t_queue s))])
        end
  | TReady l => slot_ready l s
  | TFailed _ | TFinished | TReplied _ => (s, [])
  | TEnable => if t_enabled s then (s, []) else (schedule (mk_thumbs true (t_suspended s) (t_timer s) (t_paths s) (t_requested s) (t_queue s)), [])       (* 218-225 *)
  | TSuspend => if t_suspended s then (s, []) else (schedule (mk_thumbs (t_enabled s) true (t_timer s) (t_paths s) (t_requested s) (t_queue s)), [])     (* 227-233 *)
  | TResume => if t_suspended s then (schedule (mk_thumbs (t_enabled s) false (t_timer s) (t_paths s) (t_requested s) (t_queue s)), []) else (s, [])     (* 235-241 *)
  end.
Fixpoint t_run (s : thumbs) (l : list tin) : thumbs * list tout :=
  match l with [] => (s, []) | i :: r => let '(s1, o1) := t_step s i in let '(s2, o2) := t_run s1 r in (s2, o1 ++ o2) end.
