-Q theories Verif
theories/AgentMain.v
theories/AgentModel.v
theories/AgentProofs.v
theories/AgentProps.v
theories/AgentSpec.v
theories/AnimMain.v
theories/AnimModel.v
theories/AnimProofs.v
theories/AnimProps.v
theories/AnimRun.v
theories/AnimSpec.v
theories/ApartMain.v
theories/ApartProofs.v
theories/ApartProps.v
theories/ApartSpec.v
theories/AssocLemmas.v
theories/Base.v
theories/BeyondMain.v
theories/BeyondProps.v
theories/BeyondSpec.v
theories/BodyMain.v
theories/BodyModel.v
theories/BodyProofs.v
theories/BodyProps.v
theories/BodySpec.v
theories/BuildMain.v
theories/BuildModel.v
theories/BuildProps.v
theories/BuildSpec.v
theories/CauseMain.v
theories/CauseProofs.v
theories/CauseProps.v
theories/CauseSpec.v
theories/CollExamples.v
theories/CollMain.v
theories/CollModel.v
theories/CollProofs.v
theories/CollProps.v
theories/CollSpec.v
theories/CrashMain.v
theories/CrashModel.v
theories/CrashProps.v
theories/CrashSpec.v
theories/CtrlMain.v
theories/CtrlModel.v
theories/CtrlProofs.v
theories/CtrlProps.v
theories/CtrlSpec.v
theories/DataMain.v
theories/DataModel.v
theories/DataProofs.v
theories/DataProps.v
theories/DataSpec.v
theories/DecMain.v
theories/DecModel.v
theories/DecProofs.v
theories/DecProofs2.v
theories/DecProps.v
theories/DecSpec.v
theories/DefaultMain.v
theories/DefaultProps.v
theories/DictLemmas.v
theories/DrawMain.v
theories/DrawModel.v
theories/DrawProofs.v
theories/DrawProps.v
theories/DrawSpec.v
theories/DynMain.v
theories/DynModel.v
theories/DynProofs.v
theories/DynProps.v
theories/DynSpec.v
theories/EvalFreq.v
theories/EvalMain.v
theories/EvalModel.v
theories/EvalProofs.v
theories/EvalProps.v
theories/EvalSpec.v
theories/FloatMain.v
theories/FloatModel.v
theories/FloatProofs.v
theories/FloatProps.v
theories/FloatSpec.v
theories/FollowMain.v
theories/FollowModel.v
theories/FollowProps.v
theories/FollowSpec.v
theories/GeoMain.v
theories/GeoModel.v
theories/GeoProofs.v
theories/GeoProps.v
theories/GeoSpec.v
theories/GoalMain.v
theories/GoalModel.v
theories/GoalProofs.v
theories/GoalProps.v
theories/GoalSpec.v
theories/HeapExamples.v
theories/HeapMain.v
theories/HeapModel.v
theories/HeapProofs.v
theories/HeapProofs2.v
theories/HeapProofs3.v
theories/HeapProps.v
theories/HeapSpec.v
theories/ImpactMain.v
theories/ImpactModel.v
theories/ImpactProps.v
theories/ImpactSpec.v
theories/IntegMain.v
theories/IntegProps.v
theories/IntegSpec.v
theories/LaneMain.v
theories/LaneModel.v
theories/LaneProofs.v
theories/LaneProps.v
theories/LaneSpec.v
theories/LaneStraight.v
theories/LightMain.v
theories/LightModel.v
theories/LightProofs.v
theories/LightProps.v
theories/LightSpec.v
theories/LimitMain.v
theories/LimitProofs.v
theories/LimitProps.v
theories/LimitSpec.v
theories/LoopMain.v
theories/LoopModel.v
theories/LoopProofs.v
theories/LoopProps.v
theories/LoopSpec.v
theories/MorphMain.v
theories/MorphProofs.v
theories/MorphProps.v
theories/MorphRead.v
theories/MorphSpec.v
theories/MoveMain.v
theories/MoveModel.v
theories/MoveProofs.v
theories/MoveProps.v
theories/MoveSpec.v
theories/NewtonMain.v
theories/NewtonProofs.v
theories/NewtonProps.v
theories/NewtonSpec.v
theories/Num.v
theories/OrderMain.v
theories/OrderProofs.v
theories/OrderProps.v
theories/OrderRead.v
theories/OrderSpec.v
theories/OutlineMain.v
theories/OutlineProps.v
theories/OutlineSpec.v
theories/PairsMain.v
theories/PairsProps.v
theories/PairsSpec.v
theories/PerceptionExamples.v
theories/PerceptionMain.v
theories/PerceptionModel.v
theories/PerceptionProofs.v
theories/PerceptionProps.v
theories/PerceptionSpec.v
theories/PlaceMain.v
theories/PlaceModels.v
theories/PlaceProofs.v
theories/PlaceProps.v
theories/PlaceSpec.v
theories/PlaceWorld.v
theories/PlanMain.v
theories/PlanModel.v
theories/PlanProofs.v
theories/PlanProps.v
theories/PlanSpec.v
theories/PursuitMain.v
theories/PursuitModel.v
theories/PursuitProps.v
theories/PursuitSpec.v
theories/R2.v
theories/RaiseMain.v
theories/RaiseProps.v
theories/ReplayMain.v
theories/ReplayModel.v
theories/ReplayProofs.v
theories/ReplayProps.v
theories/ReplaySpec.v
theories/RoadMain.v
theories/RoadModel.v
theories/RoadProofs.v
theories/RoadProps.v
theories/RoadSpec.v
theories/ScenarioMain.v
theories/ScenarioModel.v
theories/ScenarioProofs.v
theories/ScenarioProps.v
theories/ScenarioSpec.v
theories/SchedMain.v
theories/SchedProps.v
theories/SensorMain.v
theories/SensorModel.v
theories/SensorProofs.v
theories/SensorProps.v
theories/SensorSpec.v
theories/SeqMain.v
theories/SeqModel.v
theories/SeqProofs.v
theories/SeqProofs2.v
theories/SeqProps.v
theories/SeqSpec.v
theories/ShapeMain.v
theories/ShapeModel.v
theories/ShapeProofs.v
theories/ShapeProps.v
theories/SimulatorMain.v
theories/SimulatorModel.v
theories/SimulatorProofs.v
theories/SimulatorProofs2.v
theories/SimulatorProofs3.v
theories/SimulatorProofs4.v
theories/SimulatorProofs5.v
theories/SimulatorProofs6.v
theories/SimulatorProofs7.v
theories/SimulatorProofs8.v
theories/SimulatorProps.v
theories/SimulatorSpec.v
theories/SimulatorWorld.v
theories/SwapMain.v
theories/SwapMirror.v
theories/SwapProofs.v
theories/SwapProps.v
theories/SwapSpec.v
theories/ToolzMain.v
theories/ToolzModel.v
theories/ToolzProps.v
theories/TrajExamples.v
theories/TrajGraphProofs.v
theories/TrajMain.v
theories/TrajModel.v
theories/TrajNx.v
theories/TrajProofs.v
theories/TrajProps.v
theories/TrajSpec.v
theories/VehState.v
