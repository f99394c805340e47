-Q theories Verif
theories/Model/PyBase.v
theories/Model/PyReal.v
theories/Model/Sparse.v
theories/Model/Utils.v
theories/Model/Rule.v
theories/Spec/SMatrix.v
theories/Proofs/PBase.v
theories/Proofs/PSparse.v
theories/Proofs/PUtils.v
theories/Spec/SRule.v
theories/Proofs/PRule.v
theories/Proofs/PSets.v
theories/Proofs/PRuleMetric.v
theories/Proofs/T_Rule.v
theories/Properties/P_Rule.v
theories/Model/GreedyBase.v
theories/Spec/SPredict.v
theories/Proofs/PGreedyBase.v
theories/Proofs/T_GreedyBase.v
theories/Properties/P_GreedyBase.v
theories/Model/Trie.v
theories/Spec/STrie.v
theories/Proofs/PTrie.v
theories/Proofs/T_Trie.v
theories/Properties/P_Trie.v
theories/Model/Assign.v
theories/Spec/SAssign.v
theories/Proofs/PAssign.v
theories/Proofs/T_Assign.v
theories/Properties/P_Assign.v
theories/Model/Graph.v
theories/Model/Cliques.v
theories/Spec/SGraph.v
theories/Proofs/PCliques.v
theories/Proofs/PGraph.v
theories/Proofs/T_Graph.v
theories/Properties/P_Graph.v
theories/Model/Rand.v
theories/Model/Uncovered.v
theories/Spec/SUncovered.v
theories/Proofs/PRand.v
theories/Proofs/PUncovered.v
theories/Proofs/T_Uncovered.v
theories/Properties/P_Uncovered.v
theories/Model/RandR.v
theories/Model/Cftp.v
theories/Proofs/PRandR.v
theories/Proofs/PCftp.v
theories/Spec/SCftp.v
theories/Proofs/T_Cftp.v
theories/Properties/P_Cftp.v
theories/Proofs/PSubsets.v
theories/Proofs/T_Convert.v
theories/Properties/P_Convert.v
theories/Model/Boley.v
theories/Spec/SBoley.v
theories/Proofs/PBoley.v
theories/Proofs/T_Boley.v
theories/Properties/P_Boley.v
theories/Proofs/T_BoleyFA.v
theories/Properties/P_BoleyFA.v
theories/Model/PyState.v
theories/Model/Greedy.v
theories/Spec/SGreedy.v
theories/Proofs/PGreedy.v
theories/Proofs/T_Greedy.v
theories/Properties/P_Greedy.v
theories/Model/Evaluation.v
theories/Spec/SEval.v
theories/Proofs/T_Eval.v
theories/Properties/P_Eval.v
theories/Model/Data.v
theories/Spec/SData.v
theories/Proofs/T_Data.v
theories/Properties/P_Data.v
theories/Model/Plot.v
theories/Spec/SPlot.v
theories/Proofs/T_Plot.v
theories/Properties/P_Plot.v
theories/Model/GreedyArea.v
theories/Spec/SGreedyArea.v
theories/Proofs/T_GreedyArea.v
theories/Properties/P_GreedyArea.v
theories/Model/GreedyHead.v
theories/Spec/SGreedyHead.v
theories/Proofs/T_GreedyHead.v
theories/Properties/P_GreedyHead.v
theories/Model/Exp.v
theories/Spec/SExp.v
theories/Proofs/T_Exp.v
theories/Properties/P_Exp.v
theories/Model/Synth.v
theories/Spec/SSynth.v
theories/Proofs/T_Synth.v
theories/Properties/P_Synth.v
theories/Model/Reader.v
theories/Spec/SReader.v
theories/Proofs/T_Reader.v
theories/Properties/P_Reader.v
theories/Model/Pcv.v
theories/Spec/SPcv.v
theories/Proofs/T_Pcv.v
theories/Properties/P_Pcv.v
theories/Model/Seed.v
theories/Spec/SSeed.v
theories/Proofs/T_Seed.v
theories/Properties/P_Seed.v
theories/Model/TrieEq.v
theories/Spec/STrieEq.v
theories/Proofs/T_TrieEq.v
theories/Properties/P_TrieEq.v
theories/Model/Load.v
theories/Spec/SLoad.v
theories/Proofs/T_Load.v
theories/Properties/P_Load.v
theories/Spec/SAdvise.v
theories/Proofs/T_Advise.v
theories/Properties/P_Advise.v
theories/Proofs/T_Details.v
theories/Properties/P_Details.v
theories/Spec/SDetails.v
theories/Model/HeadTruth.v
theories/Proofs/T_HeadTruth.v
theories/Properties/P_HeadTruth.v
theories/Model/Repeat.v
theories/Spec/SRepeat.v
theories/Proofs/T_Repeat.v
theories/Properties/P_Repeat.v
theories/Model/Mlflow.v
theories/Proofs/T_Mlflow.v
theories/Properties/P_Mlflow.v
theories/Spec/SApprox.v
theories/Proofs/T_Approx.v
theories/Properties/P_Approx.v
theories/Model/Subgraph.v
theories/Proofs/T_Subgraph.v
theories/Properties/P_Subgraph.v
theories/Spec/SSubgraph.v
theories/Model/Scripts.v
theories/Spec/SScripts.v
theories/Proofs/T_Scripts.v
theories/Properties/P_Scripts.v
theories/Model/Complete.v
theories/Spec/SComplete.v
theories/Proofs/T_Complete.v
theories/Properties/P_Complete.v
theories/Model/Tune.v
theories/Spec/STune.v
theories/Proofs/T_Tune.v
theories/Properties/P_Tune.v
theories/Model/Summarize.v
theories/Spec/SSummarize.v
theories/Proofs/T_Summarize.v
theories/Properties/P_Summarize.v
theories/Model/Helpers.v
theories/Spec/SMatEq.v
theories/Proofs/T_MatEq.v
theories/Properties/P_MatEq.v
theories/Spec/SFiles.v
theories/Proofs/T_Files.v
theories/Properties/P_Files.v
theories/Proofs/T_Train.v
theories/Properties/P_Train.v
theories/Proofs/T_Small.v
theories/Properties/P_Small.v
