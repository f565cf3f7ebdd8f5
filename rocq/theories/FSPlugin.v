(** The file system storage as a plugin of the storage factory: the virtual calls of
    StoragePlugin, answered by FSStoragePlugin. *)
From Verif Require Import Base AList Wire PropCache Factory FS FSSpec FSProps.

Section Plug.
Variables (C : conf) (thumb : nat -> path -> bytes) (fuel : nat).
Definition pres_code (c : N) : pres := pfail c.
Definition pres_with (c h parent : N) (hs : list N) (vs : list variant) (cvs : list (N * list variant)) (bs : list N) : pres :=
  {| pr_resp := c; pr_handle := h; pr_parent := parent; pr_handles := hs; pr_vals := vs; pr_childvals := cvs; pr_bytes := bs; pr_flag := false |}.
(** object references (see Refs.v) and per-object event switches are not part of this plugin
    model: these calls answer GeneralError here *)
Definition plugin_call (c : pcall) : M pres :=
  match c with
  | PAddItem _ info => r <- add_item C fuel info ;;
      match snd r with Some (h, q) => ret (pres_with (fst r) h q [] [] [] []) | None => ret (pres_code (fst r)) end
  | PDelete h fmt => l <- get (fun s => akeys (s_handles s)) ;; r <- delete_item C fuel l h fmt ;; ret (pres_code r)
  | PHandles fmt assoc => r <- get_object_handles fmt assoc ;; ret (pres_with (fst r) 0 0 (snd r) [] [] [])
  | PCopy h parent _ => r <- copy_object C fuel h parent true ;; ret (pres_code (fst r))
  | PMove h parent _ => r <- move_object C fuel h parent true ;; ret (pres_code r)
  | PObjInfo h => r <- get_object_info C h ;; ret (pres_with (fst r) 0 (match snd r with Some o => oi_parent o | None => 0 end) [] [] [] [])
  | PWrite h d a b => r <- write_data C h d a b ;; ret (pres_code r)
  | PWritePartial h off d a b => r <- write_partial C h off d a b ;; ret (pres_code r)
  | PTruncate h n => r <- truncate_item C h n ;; ret (pres_code r)
  | PRead h n off => r <- read_data C h n off ;; ret (pres_with (fst r) 0 0 [] [] [] (snd r))
  | PProps h ps => r <- get_props C thumb h ps ;; ret (pres_with (fst r) 0 0 [] (snd r) [] [])
  | PChildProps h ps => r <- get_child_props C thumb h ps ;; ret (pres_with (fst r) 0 0 [] [] (snd r) [])
  | PSetProps h l _ => r <- set_props C fuel h l ;; ret (pres_code r)
  | _ => ret (pres_code R_GeneralError)
  end.
(** a call that runs into undefined behaviour or the model's recursion bound changes nothing
    and fails: no such case occurs in the concrete runs this is used for *)
Definition plugin_exec (s : fs) (_ : N) (c : pcall) : fs * pres :=
  match plugin_call c s with Ret (r, s') => (s', r) | _ => (s, pres_code R_GeneralError) end.
(** fsstorageplugin.cpp:1423-1426 checkHandle *)
Definition plugin_owns (s : fs) (_ h : N) : bool := ahas h (s_handles s).
End Plug.
