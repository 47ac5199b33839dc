(** Model of walk.go.  Paths are passed by value: a path is what the callback sees while it runs (Alias.v is about the
    slices themselves).  The recursion of walk follows the nesting of the text, not its structure as a list, so it
    takes fuel; WFuel marks running out of it, and [walk_enough] shows that this never happens. *)
From Coq Require Import String.
From Verif Require Import GoStd Core Errors Api Iter.

Local Open Scope N_scope.

Inductive wres (St : Type) : Type :=
| WDone (s : St) (e : option err)
| WPanic
| WFuel.
Arguments WDone {St}. Arguments WPanic {St}. Arguments WFuel {St}.

Section Walk.
  Context {St : Type}.
  Variable pf : bytes -> bool.   (* which texts strconv.ParseFloat accepts *)

  (** State of the iterations walk starts: the caller's state and the counter [i], or how a walk below them ended
      without returning (a panic passes through the iteration: no further call). *)
  Inductive wst : Type :=
  | Live (s : St) (i : nat)
  | Dead (r : wres St).

  Definition below (w : wst) (step : St -> nat -> wres St) : wst * (bool * option err) :=
    match w with
    | Dead r => (Dead r, (false, Some EEmpty))
    | Live s i =>
        match step s i with
        | WDone s' None => (Live s' (S i), (true, None))
        | WDone s' (Some e) => (Live s' i, (false, Some e))
        | r => (Dead r, (false, Some EEmpty))
        end
    end.
  Definition after (r : itres wst) : wres St :=
    match r with
    | IDone (Live s _) e => WDone s e
    | IDone (Dead r) _ => r
    | IPanic => WPanic
    end.

  (** walk.go:15-63 [walk] *)
  Fixpoint walk (fuel : nat) (json : bytes) (path : list bytes)
           (cb : St -> bytes -> bytes -> list bytes -> St * (bool * option err)) (s : St) : wres St :=
    match fuel with
    | O => WFuel
    | S fuel =>
        match GetType pf json path with
        | Err e => WDone s (Some e)
        | Panic => WPanic
        | Ok TObject =>
            after (IterateKeyValue json
              (fun w key _ => below w (fun s _ => walk fuel json (path ++ [key]) cb s)) path (Live s 0))
        | Ok TArray =>
            after (IterateArray json
              (fun w _ => below w (fun s i => walk fuel json (path ++ [itoa (Z.of_nat i)]) cb s)) path (Live s 0))
        | Ok _ =>
            match Get json path with
            | Err e => WDone s (Some e)
            | Panic => WPanic
            | Ok val => let '(s', (_, e)) := cb s (last path []) val path in WDone s' e
            end
        end
    end.

  (** walk.go:10-13 [Walk] *)
  Definition Walk (json : bytes) (cb : St -> bytes -> bytes -> list bytes -> St * (bool * option err)) (s : St) : wres St :=
    walk (S (S (length json))) json [] cb s.
End Walk.
