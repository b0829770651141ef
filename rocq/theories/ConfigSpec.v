(** The models of the table (C94). *)
From Verif Require Import ForecastModel ConfigModel.
Definition model_of (t : dwd_type) : fc_model := match t with TypeD2 => IconD2 | TypeEu => IconEu | TypeGlobal => IconGlobal end.
