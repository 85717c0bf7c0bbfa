(** The end-to-end unit tests of /repo (generates and generates_runtime calls),
    run on the model.  These are tests of the model's fidelity, not proofs of
    properties.  The expected text is the unformatted text the model renders; it
    was checked outside Coq to have the same Python syntax tree as the text
    expected by the Rust test at the cited line. *)
From Verif Require Import Str SplAst PyAst Render Functions Transpile Commands Nom Lexer Parser CmdParser.

(** The capture groups of the only regular expression in these tests that has any *)
Definition test_groups (s : string) : res (list (Z * option string)) :=
  if contains "(?<from>" s then Ok [(1%Z, Some "from"%string); (2%Z, Some "to"%string)] else Ok [].
Definition test_env (rt : Rt) : Env := mkEnv rt (fun _ l => l) test_groups.
Definition run (rt : Rt) (s : string) : option (res string) :=
  option_map (fun r => rbind r (render_pyspark (test_env rt))) (parse s).

(** src/commands/cmd_data_model/spl.rs:105 *)
Example e2e_01 : run Require
  "datamodel Model search"
  = Some (Ok
  "df_1 = commands.data_model(None, data_model_name=""Model"", dataset_name=None, search_mode=""search"", strict_fields=False, allow_old_summaries=False, summaries_only=True)
df_1").
Proof. vm_compute. reflexivity. Qed.
(** src/commands/cmd_eval/pyspark.rs:62 *)
Example e2e_02 : run Require
  "index=""main"" | eval x=len(raw)"
  = Some (Ok
  "df_1 = commands.search(None, index=""main"")
df_2 = commands.eval(df_1, x=functions.eval.len_(F.col('raw')))
df_2").
Proof. vm_compute. reflexivity. Qed.
(** src/commands/cmd_fill_null/pyspark.rs:46 *)
Example e2e_03 : run Disallow
  "fillnull value=NULL"
  = Some (Ok
  "spark.table('main').fillna(""NULL"",)").
Proof. vm_compute. reflexivity. Qed.
(** src/commands/cmd_fill_null/pyspark.rs:54 *)
Example e2e_04 : run Require
  "fillnull value=NULL"
  = Some (Ok
  "df_1 = commands.fill_null(None, value=""NULL"", fields=None)
df_1").
Proof. vm_compute. reflexivity. Qed.
(** src/commands/cmd_join/pyspark.rs:73 *)
Example e2e_05 : run Disallow
  "join product_id [search vendors]"
  = Some (Ok
  "spark.table('main').alias('LEFT',).join(spark.table('main').where(F.col('_raw').ilike(""%vendors%""),).alias('RIGHT',), (F.col('LEFT.product_id') == F.col('RIGHT.product_id')), 'inner',)").
Proof. vm_compute. reflexivity. Qed.
(** src/commands/cmd_s_path/pyspark.rs:33 *)
Example e2e_06 : run Disallow
  "spath input=x output=y key.subkey"
  = Some (Ok
  "spark.table('main').withColumn('y', F.get_json_object(F.col('x'), ""$.key.subkey""),)").
Proof. vm_compute. reflexivity. Qed.
(** src/commands/cmd_search/pyspark.rs:302 *)
Example e2e_07 : run Disallow
  "search
        query!=""SELECT * FROM Win32_ProcessStartTrace WHERE ProcessName = 'wsmprovhost.exe'""
        AND query!=""SELECT * FROM __InstanceOperationEvent WHERE TargetInstance ISA 'AntiVirusProduct' OR TargetInstance ISA 'FirewallProduct' OR TargetInstance ISA 'AntiSpywareProduct'""
        "
  = Some (Ok
  "spark.table('main').where((~F.col('query').like(""SELECT % FROM Win32_ProcessStartTrace WHERE ProcessName = 'wsmprovhost.exe'"") & ~F.col('query').like(""SELECT % FROM __InstanceOperationEvent WHERE TargetInstance ISA 'AntiVirusProduct' OR TargetInstance ISA 'FirewallProduct' OR TargetInstance ISA 'AntiSpywareProduct'"")),)").
Proof. vm_compute. reflexivity. Qed.
(** src/commands/cmd_search/pyspark.rs:319 *)
Example e2e_08 : run Require
  "index=""lol"" sourcetype=""src1"" len(x)=3"
  = Some (Ok
  "df_1 = commands.search(None, (functions.eval.len_(F.col('x')) == F.lit(3)), index=""lol"", source_type=""src1"")
df_1").
Proof. vm_compute. reflexivity. Qed.
(** src/commands/cmd_search/pyspark.rs:332 *)
Example e2e_09 : run Require
  "sourcetype=cisco"
  = Some (Ok
  "df_1 = commands.search(None, source_type=""cisco"")
df_1").
Proof. vm_compute. reflexivity. Qed.
(** src/commands/cmd_stats/pyspark.rs:126 *)
Example e2e_10 : run Disallow
  "stats
            count min(_time) as firstTime max(_time) as lastTime
            by Processes.parent_process_name Processes.parent_process Processes.process_name Processes.process_id Processes.process Processes.dest Processes.user"
  = Some (Ok
  "spark.table('main').groupBy([""Processes.parent_process_name"", ""Processes.parent_process"", ""Processes.process_name"", ""Processes.process_id"", ""Processes.process"", ""Processes.dest"", ""Processes.user"", ]).agg(F.count(F.lit(1)).alias('count'), F.min(F.col('_time')).alias('firstTime'), F.max(F.col('_time')).alias('lastTime'),)").
Proof. vm_compute. reflexivity. Qed.
(** src/commands/cmd_stats/pyspark.rs:148 *)
Example e2e_11 : run Disallow
  "stats
            count min(_time) as firstTime max(_time) as lastTime
            by Web.http_user_agent, Web.status Web.http_method, Web.url, Web.url_length, Web.src, Web.dest, sourcetype"
  = Some (Ok
  "spark.table('main').groupBy([""Web.http_user_agent"", ""Web.status"", ""Web.http_method"", ""Web.url"", ""Web.url_length"", ""Web.src"", ""Web.dest"", ""sourcetype"", ]).agg(F.count(F.lit(1)).alias('count'), F.min(F.col('_time')).alias('firstTime'), F.max(F.col('_time')).alias('lastTime'),)").
Proof. vm_compute. reflexivity. Qed.
(** src/commands/cmd_stats/pyspark.rs:176 *)
Example e2e_12 : run Disallow
  "stats
        count min(_time) AS firstTime max(_time) AS lastTime
        BY _time span=1h Processes.user Processes.process_id Processes.process_name Processes.process Processes.process_path Processes.dest Processes.parent_process_name Processes.parent_process Processes.process_guid"
  = Some (Ok
  "spark.table('main').groupBy([F.window(""_time"", ""1 hours""), ""Processes.user"", ""Processes.process_id"", ""Processes.process_name"", ""Processes.process"", ""Processes.process_path"", ""Processes.dest"", ""Processes.parent_process_name"", ""Processes.parent_process"", ""Processes.process_guid"", ]).agg(F.count(F.lit(1)).alias('count'), F.min(F.col('_time')).alias('firstTime'), F.max(F.col('_time')).alias('lastTime'),)").
Proof. vm_compute. reflexivity. Qed.
(** src/commands/cmd_stats/pyspark.rs:205 *)
Example e2e_13 : run Disallow
  "stats
        count min(_time) as firstTime max(_time) as lastTime
        by Processes.original_file_name Processes.parent_process_name Processes.parent_process Processes.process_name Processes.process Processes.parent_process_id Processes.process_id  Processes.dest Processes.user"
  = Some (Ok
  "spark.table('main').groupBy([""Processes.original_file_name"", ""Processes.parent_process_name"", ""Processes.parent_process"", ""Processes.process_name"", ""Processes.process"", ""Processes.parent_process_id"", ""Processes.process_id"", ""Processes.dest"", ""Processes.user"", ]).agg(F.count(F.lit(1)).alias('count'), F.min(F.col('_time')).alias('firstTime'), F.max(F.col('_time')).alias('lastTime'),)").
Proof. vm_compute. reflexivity. Qed.
(** src/commands/cmd_stats/pyspark.rs:232 *)
Example e2e_14 : run Require
  "stats
        count min(_time) as firstTime max(_time) as lastTime
        by _time span=1h Processes.original_file_name Processes.parent_process_name Processes.parent_process Processes.process_name Processes.process Processes.parent_process_id Processes.process_id  Processes.dest Processes.user"
  = Some (Ok
  "df_1 = commands.stats(None, by=[ F.window(""_time"", ""1 hours""), F.col('Processes.original_file_name'), F.col('Processes.parent_process_name'), F.col('Processes.parent_process'), F.col('Processes.process_name'), F.col('Processes.process'), F.col('Processes.parent_process_id'), F.col('Processes.process_id'), F.col('Processes.dest'), F.col('Processes.user') ], count=functions.stats.count(), firstTime=functions.stats.min(F.col('_time')), lastTime=functions.stats.max(F.col('_time')))
df_1").
Proof. vm_compute. reflexivity. Qed.
(** src/commands/cmd_t_stats/pyspark.rs:169 *)
Example e2e_15 : run Disallow
  "tstats
            summariesonly=false allow_old_summaries=true fillnull_value=null
            count min(_time) as firstTime max(_time) as lastTime
            from datamodel=Endpoint.Processes
            where (Processes.process_name=wmic.exe OR Processes.original_file_name=wmic.exe) Processes.process = ""*os get*"" Processes.process=""*/format:*"" Processes.process = ""*.xsl*""
            by Processes.parent_process_name Processes.parent_process Processes.process_name Processes.process_id Processes.process Processes.dest Processes.user"
  = Some (Ok
  "spark.table('Endpoint.Processes').where((((((F.col('Processes.process_name') == F.lit('wmic.exe')) | (F.col('Processes.original_file_name') == F.lit('wmic.exe'))) & F.col('Processes.process').like(""%os get%"")) & F.col('Processes.process').like(""%/format:%"")) & F.col('Processes.process').like(""%.xsl%"")),).groupBy([""Processes.parent_process_name"", ""Processes.parent_process"", ""Processes.process_name"", ""Processes.process_id"", ""Processes.process"", ""Processes.dest"", ""Processes.user"", ]).agg(F.count(F.lit(1)).alias('count'), F.min(F.col('_time')).alias('firstTime'), F.max(F.col('_time')).alias('lastTime'),)").
Proof. vm_compute. reflexivity. Qed.
(** src/commands/cmd_t_stats/pyspark.rs:208 *)
Example e2e_16 : run Disallow
  "tstats
            count min(_time) as firstTime max(_time) as lastTime
            from datamodel=Web
            where Web.url IN (""/AHT/AhtApiService.asmx/AuthUser"") Web.status=200 Web.http_method=POST
            by Web.http_user_agent, Web.status Web.http_method, Web.url, Web.url_length, Web.src, Web.dest, sourcetype"
  = Some (Ok
  "spark.table('Web').where((((F.col('Web.url') == ""/AHT/AhtApiService.asmx/AuthUser"") & (F.col('Web.status') == F.lit(200))) & (F.col('Web.http_method') == F.lit('POST'))),).groupBy([""Web.http_user_agent"", ""Web.status"", ""Web.http_method"", ""Web.url"", ""Web.url_length"", ""Web.src"", ""Web.dest"", ""sourcetype"", ]).agg(F.count(F.lit(1)).alias('count'), F.min(F.col('_time')).alias('firstTime'), F.max(F.col('_time')).alias('lastTime'),)").
Proof. vm_compute. reflexivity. Qed.
(** src/commands/cmd_t_stats/pyspark.rs:248 *)
Example e2e_17 : run Disallow
  "tstats
        summariesonly=false allow_old_summaries=true fillnull_value=null
        count min(_time) AS firstTime max(_time)
        AS lastTime
        FROM datamodel=Endpoint.Processes
        BY _time span=1h Processes.user Processes.process_id Processes.process_name Processes.process Processes.process_path Processes.dest Processes.parent_process_name Processes.parent_process Processes.process_guid"
  = Some (Ok
  "spark.table('Endpoint.Processes').groupBy([F.window(""_time"", ""1 hours""), ""Processes.user"", ""Processes.process_id"", ""Processes.process_name"", ""Processes.process"", ""Processes.process_path"", ""Processes.dest"", ""Processes.parent_process_name"", ""Processes.parent_process"", ""Processes.process_guid"", ]).agg(F.count(F.lit(1)).alias('count'), F.min(F.col('_time')).alias('firstTime'), F.max(F.col('_time')).alias('lastTime'),)").
Proof. vm_compute. reflexivity. Qed.
(** src/commands/cmd_t_stats/pyspark.rs:280 *)
Example e2e_18 : run Disallow
  "tstats
        summariesonly=false allow_old_summaries=true fillnull_value=null
        count min(_time) as firstTime max(_time) as lastTime
        from datamodel=Endpoint.Processes
        where (Processes.process_name =""7z.exe"" OR Processes.process_name = ""7za.exe"" OR Processes.original_file_name = ""7z.exe"" OR Processes.original_file_name =  ""7za.exe"") AND (Processes.process=""*\\C$\\*"" OR Processes.process=""*\\Admin$\\*"" OR Processes.process=""*\\IPC$\\*"")
        by Processes.original_file_name Processes.parent_process_name Processes.parent_process Processes.process_name Processes.process Processes.parent_process_id Processes.process_id  Processes.dest Processes.user"
  = Some (Ok
  "spark.table('Endpoint.Processes').where((((((F.col('Processes.process_name') == F.lit('7z.exe')) | (F.col('Processes.process_name') == F.lit('7za.exe'))) | (F.col('Processes.original_file_name') == F.lit('7z.exe'))) | (F.col('Processes.original_file_name') == F.lit('7za.exe'))) & ((F.col('Processes.process').like(""%\\C$\\%"") | F.col('Processes.process').like(""%\\Admin$\\%"")) | F.col('Processes.process').like(""%\\IPC$\\%""))),).groupBy([""Processes.original_file_name"", ""Processes.parent_process_name"", ""Processes.parent_process"", ""Processes.process_name"", ""Processes.process"", ""Processes.parent_process_id"", ""Processes.process_id"", ""Processes.dest"", ""Processes.user"", ]).agg(F.count(F.lit(1)).alias('count'), F.min(F.col('_time')).alias('firstTime'), F.max(F.col('_time')).alias('lastTime'),)").
Proof. vm_compute. reflexivity. Qed.
(** src/commands/cmd_t_stats/pyspark.rs:326 *)
Example e2e_19 : run Require
  "tstats
        summariesonly=false allow_old_summaries=true fillnull_value=null
        count min(_time) as firstTime max(_time) as lastTime
        from datamodel=Endpoint.Processes
        where (Processes.process_name =""7z.exe"" OR Processes.process_name = ""7za.exe"" OR Processes.original_file_name = ""7z.exe"" OR Processes.original_file_name =  ""7za.exe"") AND (Processes.process=""*\\C$\\*"" OR Processes.process=""*\\Admin$\\*"" OR Processes.process=""*\\IPC$\\*"")
        by _time span=1h Processes.original_file_name Processes.parent_process_name Processes.parent_process Processes.process_name Processes.process Processes.parent_process_id Processes.process_id  Processes.dest Processes.user"
  = Some (Ok
  "df_1 = commands.tstats(None, from_={ ""datamodel"": ""Endpoint.Processes"", ""nodename"": None }, fill_null_value=""null"", where=(((((F.col('Processes.process_name') == F.lit('7z.exe')) | (F.col('Processes.process_name') == F.lit('7za.exe'))) | (F.col('Processes.original_file_name') == F.lit('7z.exe'))) | (F.col('Processes.original_file_name') == F.lit('7za.exe'))) & ((F.col('Processes.process').like(""%\\C$\\%"") | F.col('Processes.process').like(""%\\Admin$\\%"")) | F.col('Processes.process').like(""%\\IPC$\\%""))), by=[ F.window(""_time"", ""1 hours""), F.col('Processes.original_file_name'), F.col('Processes.parent_process_name'), F.col('Processes.parent_process'), F.col('Processes.process_name'), F.col('Processes.process'), F.col('Processes.parent_process_id'), F.col('Processes.process_id'), F.col('Processes.dest'), F.col('Processes.user') ], count=functions.stats.count(), firstTime=functions.stats.min(F.col('_time')), lastTime=functions.stats.max(F.col('_time')))
df_1").
Proof. vm_compute. reflexivity. Qed.
(** src/pyspark/mod.rs:26 *)
Example e2e_20 : run Disallow
  "n>2 | stats count() by valid"
  = Some (Ok
  "spark.table('main').where((F.col('n') > F.lit(2)),).groupBy([""valid"", ]).agg(F.count(F.lit(1)).alias('count'),)").
Proof. vm_compute. reflexivity. Qed.
(** src/pyspark/mod.rs:41 *)
Example e2e_21 : run Disallow
  "code IN(4*, 5*)"
  = Some (Ok
  "spark.table('main').where((F.col('code').like(""4%"") | F.col('code').like(""5%"")),)").
Proof. vm_compute. reflexivity. Qed.
(** src/pyspark/mod.rs:58 *)
Example e2e_22 : run Disallow
  "n>2 | stats sum(n) by valid"
  = Some (Ok
  "spark.table('main').where((F.col('n') > F.lit(2)),).groupBy([""valid"", ]).agg(F.sum(F.col('n')).alias('sum'),)").
Proof. vm_compute. reflexivity. Qed.
(** src/pyspark/mod.rs:88 *)
Example e2e_23 : run Disallow
  "eval n=23 | stats sum(n) by valid"
  = Some (Ok
  "spark.table('main').withColumn('n', F.lit(23),).groupBy([""valid"", ]).agg(F.sum(F.col('n')).alias('sum'),)").
Proof. vm_compute. reflexivity. Qed.
(** src/pyspark/mod.rs:106 *)
Example e2e_24 : run Disallow
  "n>2 | stats sum(n)"
  = Some (Ok
  "spark.table('main').where((F.col('n') > F.lit(2)),).groupBy([]).agg(F.sum(F.col('n')).alias('sum'),)").
Proof. vm_compute. reflexivity. Qed.
(** src/pyspark/mod.rs:123 *)
Example e2e_25 : run Disallow
  "n>2 | stats sum(n) AS total_sum"
  = Some (Ok
  "spark.table('main').where((F.col('n') > F.lit(2)),).groupBy([]).agg(F.sum(F.col('n')).alias('total_sum'),)").
Proof. vm_compute. reflexivity. Qed.
(** src/pyspark/mod.rs:138 *)
Example e2e_26 : run Disallow
  "stats values(d) as set"
  = Some (Ok
  "spark.table('main').groupBy([]).agg(F.collect_set(F.col('d')).alias('set'),)").
Proof. vm_compute. reflexivity. Qed.
(** src/pyspark/mod.rs:154 *)
Example e2e_27 : run Disallow
  "stats latest(d) as latest"
  = Some (Ok
  "spark.table('main').orderBy(F.col('_time').asc(),).groupBy([]).agg(F.last(F.col('d'), True).alias('latest'),)").
Proof. vm_compute. reflexivity. Qed.
(** src/pyspark/mod.rs:170 *)
Example e2e_28 : run Disallow
  "stats earliest(d) as earliest"
  = Some (Ok
  "spark.table('main').orderBy(F.col('_time').asc(),).groupBy([]).agg(F.first(F.col('d'), True).alias('earliest'),)").
Proof. vm_compute. reflexivity. Qed.
(** src/pyspark/mod.rs:184 *)
Example e2e_29 : run Disallow
  "eval n_large=if(n > 3, 1, 0)"
  = Some (Ok
  "spark.table('main').withColumn('n_large', F.when((F.col('n') > F.lit(3)), F.lit(1)).otherwise(F.lit(0)),)").
Proof. vm_compute. reflexivity. Qed.
(** src/pyspark/mod.rs:199 *)
Example e2e_30 : run Disallow
  "index=main | eval coalesced=coalesce(b,c)"
  = Some (Ok
  "spark.table('main').withColumn('coalesced', F.coalesce(F.col('b'), F.col('c')),)").
Proof. vm_compute. reflexivity. Qed.
(** src/pyspark/mod.rs:216 *)
Example e2e_31 : run Disallow
  "bin span=5m n"
  = Some (Ok
  "spark.table('main').withColumn('n', F.window(F.col('n'), ""5 minutes""),).withColumn('n', F.col('n.start'),)").
Proof. vm_compute. reflexivity. Qed.
(** src/pyspark/mod.rs:230 *)
Example e2e_32 : run Disallow
  "eval count=mvcount(d)"
  = Some (Ok
  "spark.table('main').withColumn('count', F.size(F.col('d')),)").
Proof. vm_compute. reflexivity. Qed.
(** src/pyspark/mod.rs:245 *)
Example e2e_33 : run Disallow
  "eval count=mvindex(d,0,1)"
  = Some (Ok
  "spark.table('main').withColumn('count', F.slice(F.col('d'), 1, 2),)").
Proof. vm_compute. reflexivity. Qed.
(** src/pyspark/mod.rs:261 *)
Example e2e_34 : run Disallow
  "eval mvappended=mvappend(d,d)"
  = Some (Ok
  "spark.table('main').withColumn('mvappended', F.concat(F.col('d'), F.col('d')),)").
Proof. vm_compute. reflexivity. Qed.
(** src/pyspark/mod.rs:276 *)
Example e2e_35 : run Disallow
  "eval count=mvcount(d)"
  = Some (Ok
  "spark.table('main').withColumn('count', F.size(F.col('d')),)").
Proof. vm_compute. reflexivity. Qed.
(** src/pyspark/mod.rs:307 *)
Example e2e_36 : run Disallow
  "eval date=strftime(_time, ""%Y-%m-%d %T"")"
  = Some (Ok
  "spark.table('main').withColumn('date', F.date_format(F.col('_time'), ""yyyy-MM-dd HH:mm:ss""),)").
Proof. vm_compute. reflexivity. Qed.
(** src/pyspark/mod.rs:322 *)
Example e2e_37 : run Disallow
  "eval min=min(n, 100)"
  = Some (Ok
  "spark.table('main').withColumn('min', F.least(F.col('n'), F.lit(100)),)").
Proof. vm_compute. reflexivity. Qed.
(** src/pyspark/mod.rs:337 *)
Example e2e_38 : run Disallow
  "eval max=max(n, 0)"
  = Some (Ok
  "spark.table('main').withColumn('max', F.greatest(F.col('n'), F.lit(0)),)").
Proof. vm_compute. reflexivity. Qed.
(** src/pyspark/mod.rs:352 *)
Example e2e_39 : run Disallow
  "eval rounded=round(42.003, 0)"
  = Some (Ok
  "spark.table('main').withColumn('rounded', F.round(F.lit(42.003), 0),)").
Proof. vm_compute. reflexivity. Qed.
(** src/pyspark/mod.rs:367 *)
Example e2e_40 : run Disallow
  "eval sub=substr(a, 3, 5)"
  = Some (Ok
  "spark.table('main').withColumn('sub', F.substring(F.col('a'), 3, 5),)").
Proof. vm_compute. reflexivity. Qed.
(** src/pyspark/mod.rs:382 *)
Example e2e_41 : run Disallow
  "eval lenA=len(a)"
  = Some (Ok
  "spark.table('main').withColumn('lenA', F.length(F.col('a')),)").
Proof. vm_compute. reflexivity. Qed.
(** src/pyspark/mod.rs:443 *)
Example e2e_42 : run Disallow
  "makeresults count=10 annotate=true"
  = Some (Ok
  "spark.range(0, 10, 1).withColumn('_time', F.current_timestamp(),).withColumn('_raw', F.lit(None),).withColumn('host', F.lit(None),).withColumn('source', F.lit(None),).withColumn('sourcetype', F.lit(None),).withColumn('splunk_server', F.lit(""local""),).withColumn('splunk_server_group', F.lit(None),)").
Proof. vm_compute. reflexivity. Qed.
(** src/pyspark/mod.rs:465 *)
Example e2e_43 : run Disallow
  "makeresults count=10"
  = Some (Ok
  "spark.range(0, 10, 1).withColumn('_time', F.current_timestamp(),)").
Proof. vm_compute. reflexivity. Qed.
(** src/pyspark/mod.rs:484 *)
Example e2e_44 : run Disallow
  "addtotals fieldname=num_total num_man num_woman"
  = Some (Ok
  "spark.table('main').withColumn('num_total', F.when(F.col('num_man').cast(""double"").isNotNull(), F.col('num_man')).otherwise(F.lit(0.0)) + F.when(F.col('num_woman').cast(""double"").isNotNull(), F.col('num_woman')).otherwise(F.lit(0.0)),)").
Proof. vm_compute. reflexivity. Qed.
(** src/pyspark/mod.rs:551 *)
Example e2e_45 : run Disallow
  "eval in_range=if(cidrmatch(""10.0.0.0/24"", src_ip), 1, 0)"
  = Some (Ok
  "spark.table('main').withColumn('in_range', F.when(F.expr(""cidr_match('10.0.0.0/24', src_ip)""), F.lit(1)).otherwise(F.lit(0)),)").
Proof. vm_compute. reflexivity. Qed.
(** src/pyspark/mod.rs:576 *)
Example e2e_46 : run Disallow
  "eval in_range=if(cidrmatch(10.0.0.0/24, src_ip), 1, 0)"
  = Some (Ok
  "spark.table('main').withColumn('in_range', F.when(F.expr(""cidr_match('10.0.0.0/24', src_ip)""), F.lit(1)).otherwise(F.lit(0)),)").
Proof. vm_compute. reflexivity. Qed.
(** src/pyspark/mod.rs:591 *)
Example e2e_47 : run Disallow
  "src_ip = 10.0.0.0/16"
  = Some (Ok
  "spark.table('main').where(F.expr(""cidr_match('10.0.0.0/16', src_ip)""),)").
Proof. vm_compute. reflexivity. Qed.
(** src/pyspark/mod.rs:606 *)
Example e2e_48 : run Disallow
  "src_ip = ""x*"""
  = Some (Ok
  "spark.table('main').where(F.col('src_ip').like(""x%""),)").
Proof. vm_compute. reflexivity. Qed.
(** src/pyspark/mod.rs:626 *)
Example e2e_49 : run Disallow
  "eval fsize_quant=memk(fsize)"
  = Some (Ok
  "spark.table('main').withColumn('fsize_quant', F.regexp_extract(F.col('fsize'), ""(?i)^(\d*\.?\d+)([kmg])$"", 1).cast(""double"") * F.when((F.upper(F.regexp_extract(F.col('fsize'), ""(?i)^(\d*\.?\d+)([kmg])$"", 2)) == F.lit(""K"")), F.lit(1.0)).when((F.upper(F.regexp_extract(F.col('fsize'), ""(?i)^(\d*\.?\d+)([kmg])$"", 2)) == F.lit(""M"")), F.lit(1024.0)).when((F.upper(F.regexp_extract(F.col('fsize'), ""(?i)^(\d*\.?\d+)([kmg])$"", 2)) == F.lit(""G"")), F.lit(1048576.0)).otherwise(F.lit(1.0)),)").
Proof. vm_compute. reflexivity. Qed.
(** src/pyspark/mod.rs:687 *)
Example e2e_50 : run Disallow
  "eval rmunit=rmunit(fsize)"
  = Some (Ok
  "spark.table('main').withColumn('rmunit', F.regexp_extract(F.col('fsize'), ""(?i)^(\d*\.?\d+)(\w*)$"", 1).cast(""double""),)").
Proof. vm_compute. reflexivity. Qed.
(** src/pyspark/mod.rs:709 *)
Example e2e_51 : run Disallow
  "eval rmcomma=rmcomma(s)"
  = Some (Ok
  "spark.table('main').withColumn('rmcomma', F.regexp_replace(F.col('s'), "","", """").cast(""double""),)").
Proof. vm_compute. reflexivity. Qed.
(** src/pyspark/mod.rs:727 *)
Example e2e_52 : run Disallow
  "convert timeformat=""%Y"" ctime(_time) AS year"
  = Some (Ok
  "spark.table('main').withColumn('year', F.date_format(F.col('_time'), ""yyyy""),)").
Proof. vm_compute. reflexivity. Qed.
(** src/pyspark/mod.rs:768 *)
Example e2e_53 : run Disallow
  "multisearch [index=regionA | fields +country, orders] [index=regionB | fields +country, orders]"
  = Some (Ok
  "spark.table('regionA').select(F.col('country'), F.col('orders'),).unionByName(spark.table('regionB').select(F.col('country'), F.col('orders'),), allowMissingColumns=True,)").
Proof. vm_compute. reflexivity. Qed.
(** src/pyspark/mod.rs:840 *)
Example e2e_54 : run Disallow
  "replace(myColumn, ""before"", ""after"")"
  = Some (Ok
  "spark.table('main').where(F.regexp_replace(F.col('myColumn'), ""before"", ""after""),)").
Proof. vm_compute. reflexivity. Qed.
(** src/pyspark/mod.rs:854 *)
Example e2e_55 : run Disallow
  "lower(myColumn)"
  = Some (Ok
  "spark.table('main').where(F.lower(F.col('myColumn')),)").
Proof. vm_compute. reflexivity. Qed.
(** src/pyspark/mod.rs:870 *)
Example e2e_56 : run Disallow
  "strftime(_time, test)"
  = Some (Ok
  "spark.table('main').where(F.date_format(F.col('_time'), ""test""),)").
Proof. vm_compute. reflexivity. Qed.
(** src/pyspark/mod.rs:914 *)
Example e2e_57 : run Disallow
  "head 5"
  = Some (Ok
  "spark.table('main').limit(5,)").
Proof. vm_compute. reflexivity. Qed.
(** src/pyspark/mod.rs:920 *)
Example e2e_58 : run Disallow
  "head limit=5"
  = Some (Ok
  "spark.table('main').limit(5,)").
Proof. vm_compute. reflexivity. Qed.
(** src/pyspark/mod.rs:926 *)
Example e2e_59 : run Disallow
  "head count<5"
  = Some (Ok
  "spark.table('main').limit(5,)").
Proof. vm_compute. reflexivity. Qed.
(** src/pyspark/mod.rs:932 *)
Example e2e_60 : run Disallow
  "head count<=5 keeplast=true"
  = Some (Ok
  "spark.table('main').limit(7,)").
Proof. vm_compute. reflexivity. Qed.
(** src/pyspark/mod.rs:940 *)
Example e2e_61 : run Disallow
  "index=main | top 5 showperc=false x"
  = Some (Ok
  "spark.table('main').groupBy([""x"", ]).agg(F.count().alias('count'),).orderBy(F.col('count').desc(),).limit(5,)").
Proof. vm_compute. reflexivity. Qed.
(** src/pyspark/mod.rs:948 *)
Example e2e_62 : run Disallow
  "index=main | rare 5 showperc=false x"
  = Some (Ok
  "spark.table('main').groupBy([""x"", ]).agg(F.count().alias('count'),).orderBy(F.col('count').asc(),).limit(5,)").
Proof. vm_compute. reflexivity. Qed.
(** src/pyspark/mod.rs:956 *)
Example e2e_63 : run Disallow
  "index=alt | where n>2"
  = Some (Ok
  "spark.table('alt').where((F.col('n') > F.lit(2)),)").
Proof. vm_compute. reflexivity. Qed.
(** src/pyspark/mod.rs:964 *)
Example e2e_64 : run Disallow
  "index=alt | table x y z"
  = Some (Ok
  "spark.table('alt').select(F.col('x'), F.col('y'), F.col('z'),)").
Proof. vm_compute. reflexivity. Qed.
(** src/pyspark/mod.rs:972 *)
Example e2e_65 : run Disallow
  "index=alt | sort x, -y"
  = Some (Ok
  "spark.table('alt').orderBy(F.col('x').asc(), F.col('y').desc(),).limit(10000,)").
Proof. vm_compute. reflexivity. Qed.
(** src/pyspark/mod.rs:980 *)
Example e2e_66 : run Disallow
  "index=alt | sort 0 x, -y desc"
  = Some (Ok
  "spark.table('alt').orderBy(F.col('x').desc(), F.col('y').asc(),)").
Proof. vm_compute. reflexivity. Qed.
(** src/pyspark/mod.rs:988 *)
Example e2e_67 : run Disallow
  "index=alt | rex field=_raw ""From: <(?<from>.*)> To: <(?<to>.*)>"""
  = Some (Ok
  "spark.table('alt').withColumn('from', F.regexp_extract(F.col('_raw'), r""From: <(?<from>.*)> To: <(?<to>.*)>"", 1),).withColumn('to', F.regexp_extract(F.col('_raw'), r""From: <(?<from>.*)> To: <(?<to>.*)>"", 2),)").
Proof. vm_compute. reflexivity. Qed.
(** src/pyspark/mod.rs:1002 *)
Example e2e_68 : run Disallow
  "index=alt | regex ""From: <(?<from>.*)> To: <(?<to>.*)>"""
  = Some (Ok
  "spark.table('alt').where(F.regexp_like(F.col('_raw'), r""From: <(?<from>.*)> To: <(?<to>.*)>""),)").
Proof. vm_compute. reflexivity. Qed.
(** src/pyspark/mod.rs:1012 *)
Example e2e_69 : run Disallow
  "index=alt | regex c!=""From: <(?<from>.*)> To: <(?<to>.*)>"""
  = Some (Ok
  "spark.table('alt').where(~F.regexp_like(F.col('c'), r""From: <(?<from>.*)> To: <(?<to>.*)>""),)").
Proof. vm_compute. reflexivity. Qed.
(** src/pyspark/mod.rs:1022 *)
Example e2e_70 : run Disallow
  "index=alt | rename x AS y, a AS b"
  = Some (Ok
  "spark.table('alt').withColumnRenamed('x', 'y',).withColumnRenamed('a', 'b',)").
Proof. vm_compute. reflexivity. Qed.
(** src/pyspark/mod.rs:1030 *)
Example e2e_71 : run Disallow
  "index=alt | eval description=case(status==200, ""OK"", status==404, ""Not found"", status==500, ""Internal Server Error"")"
  = Some (Ok
  "spark.table('alt').withColumn('description', F.when((F.col('status') == F.lit(200)), F.lit('OK')).when((F.col('status') == F.lit(404)), F.lit('Not found')).when((F.col('status') == F.lit(500)), F.lit('Internal Server Error')),)").
Proof. vm_compute. reflexivity. Qed.
(** src/pyspark/mod.rs:1050 *)
Example e2e_72 : run Disallow
  "index=alt | eval x=max(a, b, c)"
  = Some (Ok
  "spark.table('alt').withColumn('x', F.greatest(F.greatest(F.col('a'), F.col('b')), F.col('c')),)").
Proof. vm_compute. reflexivity. Qed.
(** src/pyspark/mod.rs:1061 *)
Example e2e_73 : run Disallow
  "index=alt | eval x=avg(a, b, c)"
  = Some (Ok
  "spark.table('alt').withColumn('x', ((F.col('a') + F.col('b')) + F.col('c')) / 3,)").
Proof. vm_compute. reflexivity. Qed.
(** src/pyspark/mod.rs:1072 *)
Example e2e_74 : run Disallow
  "index=alt | stats percentile99(a) AS x"
  = Some (Ok
  "spark.table('alt').groupBy([]).agg(F.percentile_approx(F.col('a'), 0.99).alias('x'),)").
Proof. vm_compute. reflexivity. Qed.
(** src/pyspark/mod.rs:1082 *)
Example e2e_75 : run Disallow
  "tail 5"
  = Some (Ok
  "spark.table('main').tail(5)").
Proof. vm_compute. reflexivity. Qed.
(** src/pyspark/mod.rs:1087 *)
Example e2e_76 : run Disallow
  "search note!=ESCU*"
  = Some (Ok
  "spark.table('main').where(~F.col('note').like(""ESCU%""),)").
Proof. vm_compute. reflexivity. Qed.
