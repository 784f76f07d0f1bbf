-Q theories Verif
theories/Base.v
theories/NvModel.v
theories/NvSpec.v
theories/NvProofs.v
theories/NvProps.v
theories/ParamModel.v
theories/ParamSpec.v
theories/ParamProofs.v
theories/ParamProps.v
theories/TimeModel.v
theories/TimeProofs.v
theories/TimeProps.v
theories/ErrModel.v
theories/ErrSpec.v
theories/ErrProofs.v
theories/ErrProofs2.v
theories/ErrProps.v
theories/ModbusModel.v
theories/ModbusSpec.v
theories/ModbusProofs.v
theories/ModbusProps.v
theories/UtfModel.v
theories/UtfSpec.v
theories/UtfProofs.v
theories/UtfProps.v
theories/McModel.v
theories/McSpec.v
theories/McProofs.v
theories/McProps.v
theories/IoModel.v
theories/IoSpec.v
theories/IoProofs.v
theories/IoProofs2.v
theories/IoProofs3.v
theories/IoProps.v
theories/OpModel.v
theories/OpSpec.v
theories/OpProofs.v
theories/OpProofs2.v
theories/OpProofs3.v
theories/OpProps.v
theories/TechModel.v
theories/TechSpec.v
theories/TechProofs.v
theories/TechProofs2.v
theories/TechProofs3.v
theories/TechProofs4.v
theories/TechProps.v
theories/NetModel.v
theories/NetSpec.v
theories/NetProofs.v
theories/NetProofs2.v
theories/NetProofs3.v
theories/NetProps.v
theories/FTextModel.v
theories/FTextSpec.v
theories/FTextProofs.v
theories/FTextProofs2.v
theories/RecModel.v
theories/RecSpec.v
theories/RecProofs.v
theories/RecProofs2.v
theories/RecProofs3.v
theories/RecProofs4.v
theories/RecProofs5.v
theories/RecProofs6.v
theories/RecProofs7.v
theories/RecProps.v
theories/PacModel.v
theories/PacSpec.v
theories/PacProofs.v
theories/PacProofs2.v
theories/PacProps.v
theories/StatModel.v
theories/StatSpec.v
theories/StatProofs.v
theories/StatProofs2.v
theories/StatProps.v
theories/FloatModel.v
theories/FloatProofs.v
theories/FloatProofs2.v
theories/FloatProofs3.v
theories/AioModel.v
theories/AioSpec.v
theories/AioProofs.v
theories/AioProofs2.v
theories/AioProofs3.v
theories/AioProofs4.v
theories/AioProps.v
theories/PidModel.v
theories/PidSpec.v
theories/PidProofs.v
theories/PidProofs2.v
theories/PidProofs3.v
theories/PidProofs4.v
theories/PidProofs5.v
theories/PidProofs6.v
theories/PidProofs7.v
theories/PidProps.v
theories/PidProps2.v
theories/PidProps3.v
theories/ActModel.v
theories/ActSpec.v
theories/ActProofs.v
theories/ActProofs2.v
theories/ActProofs3.v
theories/ActProofs4.v
theories/ActProofs5.v
theories/ActProofs6.v
theories/ActProofs7.v
theories/ActProps.v
theories/ActProps2.v
theories/ValveModel.v
theories/ValveSpec.v
theories/ValveProofs.v
theories/ValveProofs2.v
theories/ValveProofs3.v
theories/ValveProofs4.v
theories/ValveProofs5.v
theories/ValveProps.v
theories/ValveProps2.v
theories/CtrModel.v
theories/CtrSpec.v
theories/CtrProofs.v
theories/CtrProofs2.v
theories/CtrProofs3.v
theories/CtrProofs4.v
theories/CtrProps.v
theories/CtrProps2.v
theories/HlaModel.v
theories/HlaSpec.v
theories/HlaProofs.v
theories/HlaProofs2.v
theories/HlaProofs3.v
theories/HlaProps.v
theories/BusModel.v
theories/BusSpec.v
theories/BusProofs.v
theories/BusProofs2.v
theories/BusProofs3.v
theories/BusProps.v
theories/IolModel.v
theories/IolSpec.v
theories/IolProofs.v
theories/IolProps.v
theories/MotModel.v
theories/MotSpec.v
theories/MotProofs.v
theories/MotProps.v
theories/AtvModel.v
theories/AtvSpec.v
theories/AtvProofs.v
theories/AtvProofs2.v
theories/AtvProps.v
theories/PowModel.v
theories/PowSpec.v
theories/PowProofs.v
theories/PowProps.v
theories/TmrModel.v
theories/TmrSpec.v
theories/TmrProofs.v
theories/TmrProofs2.v
theories/TmrProps.v
theories/SenModel.v
theories/SenSpec.v
theories/SenProofs.v
theories/SenProofs2.v
theories/SenProps.v
theories/CipModel.v
theories/CipSpec.v
theories/CipProofs.v
theories/CipProofs2.v
theories/CipProofs3.v
theories/CipProofs4.v
theories/CipProofs5.v
theories/CipProps.v
theories/RteModel.v
theories/RteSpec.v
theories/RteProofs.v
theories/RteProofs2.v
theories/RteProofs3.v
theories/RteProofs4.v
theories/RteProofs5.v
theories/RteProofs6.v
theories/RteProps.v
theories/McrModel.v
theories/McrSpec.v
theories/McrProofs.v
theories/McrProofs2.v
theories/McrProofs3.v
theories/McrProps.v
theories/WghModel.v
theories/WghSpec.v
theories/WghProofs.v
theories/WghProps.v
theories/LvlModel.v
theories/LvlSpec.v
theories/LvlProofs.v
theories/LvlProofs2.v
theories/LvlProofs3.v
theories/LvlProps.v
theories/RegModel.v
theories/RegSpec.v
theories/RegProofs.v
theories/RegProofs2.v
theories/RegProofs3.v
theories/RegProps.v
theories/DevModel.v
theories/DevSpec.v
theories/DevProofs.v
theories/DevProofs2.v
theories/DevProofs3.v
theories/DevProps.v
theories/VctModel.v
theories/VctSpec.v
theories/VctProps.v
theories/CamModel.v
theories/CamSpec.v
theories/CamProps.v
theories/VanModel.v
theories/VanSpec.v
theories/VanProps.v
