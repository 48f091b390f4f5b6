-Q theories Verif
theories/Base.v
theories/BitArray_model.v
theories/BitArray_spec.v
theories/BitArray_proofs.v
theories/BitArray_props.v
theories/Problem_model.v
theories/Problem_spec.v
theories/Merged_model.v
theories/Merged_spec.v
theories/Merged_proofs.v
theories/Merged_props.v
theories/Classify_model.v
theories/Classify_spec.v
theories/Classify_proofs.v
theories/Classify_props.v
theories/Preprocess_model.v
theories/Preprocess_spec.v
theories/Preprocess_proofs.v
theories/Preprocess_proofs2.v
theories/Preprocess_proofs3.v
theories/Preprocess_proofs4.v
theories/Preprocess_proofs5.v
theories/Preprocess_props.v
theories/Validate_model.v
theories/Validate_spec.v
theories/Validate_proofs.v
theories/Validate_props.v
theories/ResultIO_model.v
theories/ResultIO_spec.v
theories/ResultIO_proofs.v
theories/ResultIO_props.v
theories/Utils_model.v
theories/Utils_spec.v
theories/Utils_proofs.v
theories/Utils_props.v
theories/Matrix_model.v
theories/Matrix_spec.v
theories/Matrix_proofs.v
theories/Matrix_props.v
theories/Rows_model.v
theories/Rows_spec.v
theories/Rows_proofs.v
theories/Rows_props.v
theories/Solver_model.v
theories/Solver_spec.v
theories/Solver_proofs.v
theories/Solver_proofs2.v
theories/Solver_props.v
theories/Params_model.v
theories/Params_spec.v
theories/Params_proofs.v
theories/Params_props.v
theories/Queens_model.v
theories/Queens_spec.v
theories/Queens_proofs.v
theories/Queens_props.v
theories/Cost_model.v
theories/Cost_spec.v
theories/Cost_proofs.v
theories/Cost_props.v
theories/Subvector_model.v
theories/Subvector_spec.v
theories/Subvector_proofs.v
theories/Subvector_props.v
theories/Subsolver_model.v
theories/Subsolver_spec.v
theories/Subsolver_proofs.v
theories/BranchBound_model.v
theories/BranchBound_spec.v
theories/BranchBound_proofs.v
theories/Subsolver_props.v
theories/ZRow_model.v
theories/ZRow_spec.v
theories/ZRow_proofs.v
theories/ZRow_props.v
theories/Pool_model.v
theories/Pool_spec.v
theories/Pool_proofs.v
theories/Pool_proofs2.v
theories/Pool_proofs3.v
theories/Pool_props.v
theories/Lexer_model.v
theories/Lexer_spec.v
theories/Lexer_proofs.v
theories/Parser_model.v
theories/Parser_spec.v
theories/Parser_proofs.v
theories/Parser_proofs2.v
theories/Parser_proofs3.v
theories/Parser_proofs4.v
theories/Parser_proofs5.v
theories/Parser_proofs6.v
theories/Parser_proofs7.v
theories/Parser_concrete.v
theories/Writer_model.v
theories/Writer_spec.v
theories/Writer_proofs.v
theories/Writer_proofs2.v
theories/Writer_proofs3.v
theories/Lexer_props.v
theories/Parser_props.v
theories/Writer_props.v
theories/Cli_model.v
theories/Cli_spec.v
theories/Cli_proofs.v
theories/Cli_proofs2.v
theories/Cli_props.v
theories/Tuning_model.v
theories/Tuning_spec.v
theories/Tuning_proofs.v
theories/Tuning_proofs2.v
theories/Tuning_props.v
theories/Solver_proofs3.v
theories/EndToEnd_model.v
theories/EndToEnd_spec.v
theories/EndToEnd_proofs.v
theories/EndToEnd_props.v
theories/Greedy_spec.v
theories/Greedy_proofs.v
theories/Greedy_props.v
theories/RandomRow_model.v
theories/RandomRow_spec.v
theories/RandomRow_proofs.v
theories/RandomRow_props.v
theories/Update_proofs.v
theories/Update_props.v
theories/Chars_spec.v
theories/Main_model.v
theories/Main_spec.v
theories/Main_proofs.v
theories/Main_props.v
theories/Dynarray_model.v
theories/Dynarray_spec.v
theories/Dynarray_proofs.v
theories/Dynarray_props.v
theories/Bench_model.v
theories/Bench_spec.v
theories/Bench_proofs.v
theories/Bench_proofs2.v
theories/Bench_proofs3.v
theories/Bench_proofs4.v
theories/Bench_proofs5.v
theories/Bench_props.v
theories/Optimize_model.v
theories/Optimize_spec.v
theories/Optimize_proofs.v
theories/Optimize_props.v
theories/Population_spec.v
theories/Population_proofs.v
theories/Population_props.v
theories/Observer_model.v
theories/Observer_spec.v
theories/Observer_proofs.v
theories/Observer_props.v
theories/Limit_props.v
theories/RInterface_model.v
theories/RInterface_spec.v
theories/RInterface_proofs.v
theories/RInterface_props.v
theories/Writer_proofs4.v
theories/OptTool_model.v
theories/OptTool_proofs.v
theories/OptTool_props.v
theories/Announce_model.v
theories/Announce_spec.v
theories/Announce_proofs.v
theories/Announce_props.v
theories/Compare_model.v
theories/Compare_spec.v
theories/Compare_proofs.v
theories/Compare_props.v
theories/Fixed_model.v
theories/Fixed_spec.v
theories/Fixed_proofs.v
theories/Fixed_props.v
theories/Callback_model.v
theories/Callback_spec.v
theories/Callback_proofs.v
theories/Callback_props.v
theories/QueensFile_model.v
theories/QueensFile_spec.v
theories/QueensFile_proofs.v
theories/QueensExist_proofs.v
theories/QueensFile_props.v
theories/ZBest_spec.v
theories/ZBest_proofs.v
theories/ZBest_props.v
theories/Tuning_proofs3.v
theories/Refusal_spec.v
theories/Refusal_proofs.v
theories/Refusal_props.v
theories/Restart_spec.v
theories/Restart_proofs.v
theories/Restart_props.v
theories/Double_model.v
theories/Double_spec.v
theories/Double_proofs.v
theories/Double_props.v
theories/Exact_spec.v
theories/Exact_proofs.v
theories/Exact_props.v
theories/Push_spec.v
theories/Push_proofs.v
theories/Push_props.v
theories/Separable_spec.v
theories/Separable_proofs.v
theories/Separable_proofs2.v
theories/Separable_proofs3.v
theories/Separable_proofs4.v
theories/Separable_props.v
theories/BenchShow_model.v
theories/BenchShow_spec.v
theories/BenchShow_proofs.v
theories/BenchShow_props.v
theories/Returns_proofs.v
theories/Returns_proofs2.v
theories/Returns_props.v
theories/Answer_spec.v
theories/Answer_proofs.v
theories/Answer_props.v
theories/Budget_spec.v
theories/Budget_proofs.v
theories/Budget_props.v
theories/Draws_model.v
theories/Draws_spec.v
theories/Draws_proofs.v
theories/Draws_props.v
theories/Rewrite_spec.v
theories/Rewrite_proofs.v
theories/Rewrite_props.v
theories/Mirror_spec.v
theories/Mirror_proofs.v
theories/Mirror_proofs2.v
theories/Mirror_props.v
theories/StringBuffer_model.v
theories/StringBuffer_spec.v
theories/StringBuffer_proofs.v
theories/StringBuffer_props.v
theories/Memory_model.v
theories/Memory_spec.v
theories/Memory_proofs.v
theories/Memory_props.v
theories/Delta_model.v
theories/Delta_spec.v
theories/Delta_proofs.v
theories/Delta_props.v
theories/Settle_spec.v
theories/Settle_proofs.v
theories/Settle_props.v
theories/Log_model.v
theories/Log_spec.v
theories/Log_proofs.v
theories/Log_props.v
theories/Scale_spec.v
theories/Scale_proofs.v
theories/Scale_proofs2.v
theories/Scale_props.v
theories/Crash_model.v
theories/Crash_spec.v
theories/Crash_proofs.v
theories/Crash_props.v
theories/Cut_spec.v
theories/Cut_proofs.v
theories/Cut_props.v
theories/Repeat_spec.v
theories/Repeat_proofs.v
theories/Repeat_proofs2.v
theories/Repeat_props.v
theories/Layout_spec.v
theories/Layout_proofs.v
theories/Layout_proofs2.v
theories/Layout_proofs3.v
theories/Layout_props.v
theories/Int_model.v
theories/Int_spec.v
theories/Int_proofs.v
theories/Int_proofs2.v
theories/Int_proofs3.v
theories/Int_props.v
theories/Accept_spec.v
theories/Accept_proofs.v
theories/Accept_proofs2.v
theories/Accept_proofs3.v
theories/Accept_proofs4.v
theories/Accept_proofs5.v
theories/Accept_proofs6.v
theories/Accept_props.v
theories/Refused_spec.v
theories/Refused_proofs.v
theories/Refused_props.v
theories/Stops_spec.v
theories/Stops_proofs.v
theories/Stops_props.v
theories/Stops_proofs2.v
theories/Initial_spec.v
theories/Initial_proofs.v
theories/Initial_props.v
theories/Start_proofs.v
theories/Start_props.v
theories/Seed_model.v
theories/Seed_spec.v
theories/Seed_proofs.v
theories/Seed_props.v
theories/Seed_proofs2.v
