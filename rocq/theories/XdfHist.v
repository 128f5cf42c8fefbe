(** Histories of calls on random XDF files: a small file system, the file
    table and the calls that change them. *)
From Coq Require Import ZArith List Lia Bool.
From Verif Require Import Bits Handles WaFile Xdf XdfSearch XdfOpen.
Import ListNotations.
Open Scope Z_scope.
Open Scope opt_scope.

Definition ERR_FILE_OPN := -27.

(** Files are named by numbers. A file is absent, on disk and not open, or
    open in a slot of the file table (its content is then that of the slot). A
    file is opened by one unit at a time. *)
Inductive fstat := Absent | Shut (d : disk) | Opened (i : nat).
Record sys := mksys { s_w : world; s_fs : nat -> fstat }.

Definition setfs (fs : nat -> fstat) (p : nat) (x : fstat) : nat -> fstat := fun q => if Nat.eqb q p then x else fs q.

(** xdf98.c 3045-3073 (get_free_index) and 3133-3143 (init_package): slot 0 is
    reserved. *)
Definition free_slot (w : world) : option nat :=
  find (fun i => match w_file w i with None => true | Some _ => false end)
       (seq 1 ((if w_seq w then 128 else MAX_XDF_FILES) - 1)).

(** Calls. [junk]: content of malloc'ed memory and of the stack. Creating and
    opening give the unit, the attributes of the file as set by fnom and by
    the application name, and the key functions these select (xdf98.c
    1771-1785). *)
Inductive op :=
| OpCreate (junk : nat -> Z) (p : nat) (iun : Z) (std : bool) (kp : keypack) (pri aux : list (Z * Z)) (sign : Z)
| OpOpen (junk : nat -> Z) (p : nat) (iun : Z) (ro std : bool) (kp : keypack) (mode : Z)
| OpPut (junk : nat -> Z) (iun handle : Z) (buf : buffer)
| OpDel (h : Z)
| OpLoc (junk : nat -> Z) (filt : Z -> bool) (iun handle : Z) (primk : list Z) (nprim : Z) (msk : option (list Z))
| OpCkpt (junk : nat -> Z) (iun : Z)
| OpClose (junk : nat -> Z) (iun : Z).

(** xdf98.c 1740-1756: the checks made before a file is opened in slot [i]. A
    full table (index -3 used as an array index) is not modelled. *)
Definition open_slot (w : world) (iun : Z) : option (res nat) :=
  if (iun <=? 0) || (999 <? iun) then Some (Err ERR_BAD_UNIT) else
  match file_index w iun with
  | Some _ => Some (Err ERR_FILE_OPN)
  | None => match free_slot w with Some i => Some (Go i) | None => None end
  end.

(** One call: the code returned and the new state. [None]: undefined behaviour
    or outside of the model. A failed opening of an existing file leaves a
    half-initialised slot behind; it is outside of the model. *)
Definition step (o : op) (s : sys) : option (Z * sys) :=
  let w := s_w s in
  match o with
  | OpCreate junk p iun std kp pri aux sign =>
    match s_fs s p with
    | Opened _ => None
    | x =>
      r <- open_slot w iun ;;
      match r with
      | Err c => Some (c, s)
      | Go i =>
        ' (c, f) <- xdfopn_create junk iun false std kp (match x with Shut d => d | _ => [] end) pri aux sign ;;
        Some (c, mksys (setf w i (Some f)) (setfs (s_fs s) p (Opened i)))
      end
    end
  | OpOpen junk p iun ro std kp mode =>
    match s_fs s p with
    | Shut d =>
      r <- open_slot w iun ;;
      match r with
      | Err c => Some (c, s)
      | Go i =>
        r2 <- xdfopn junk iun ro std kp d mode ;;
        match r2 with
        | Err _ => None
        | Go (n, f) => Some (n, mksys (setf w i (Some f)) (setfs (s_fs s) p (Opened i)))
        end
      end
    | _ => None
    end
  | OpPut junk iun handle buf =>
    ' (c, w', _) <- xdfput junk w iun handle buf ;; Some (c, mksys w' (s_fs s))
  | OpDel h => ' (c, w') <- xdfdel w h ;; Some (c, mksys w' (s_fs s))
  | OpLoc junk filt iun handle primk nprim msk =>
    ' (c, w') <- xdfloc2 (S MAX_DIR_PAGES) junk filt w iun handle primk nprim msk ;; Some (c, mksys w' (s_fs s))
  | OpCkpt junk iun =>
    match file_index w iun with
    | None => Some (ERR_NO_FILE, s)
    | Some i => f <- w_file w i ;; f' <- xdfcls junk true f ;; Some (0, mksys (setf w i (Some f')) (s_fs s))
    end
  | OpClose junk iun =>
    match file_index w iun with
    | None => Some (ERR_NO_FILE, s)
    | Some i =>
      f <- w_file w i ;;
      f' <- xdfcls junk false f ;;
      Some (0, mksys (setf w i None)
                     (fun q => match s_fs s q with Opened j => if Nat.eqb j i then Shut (f_disk f') else Opened j | x => x end))
    end
  end.

(** Initially no file is open and none exists. *)
Definition init_sys : sys := mksys (mkworld false (fun _ => None)) (fun _ => Absent).
